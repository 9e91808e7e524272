(** Proofs about the remapper: the transfers, after any history. *)
From Coq Require Import QArith Qcanon ZifyBool ZifyNat.
From Verif Require Import Base RemapModel RemapSpec RemapProofs RemapProofs2.
Local Open Scope Z_scope.

(** What the remapper keeps: the keys of the denominators are among those of the matrix. *)
Definition covered (M N : matrix) : Prop := forall i r n, M @ i = Some r -> N @ i = Some n -> forall k, k ∈ n.*1 -> k ∈ r.*1.
Definition base (r : remapper) : Prop :=
  is_matrix (rm_mat r) /\ is_matrix (rm_deno r) /\ zlen (rm_deno r) = zlen (rm_mat r) /\ columns_below (zlen (rm_denoR r)) (rm_mat r).
Definition aligned (used : bool) (r : remapper) : Prop :=
  covered (rm_mat r) (rm_deno r) /\ (used = false -> Forall (fun n => n = []) (rm_deno r)).
Lemma deno_rows M deno d D : is_matrix M -> is_matrix deno -> zlen deno = zlen M -> covered M deno -> overwritten deno d (cell M) D ->
  forall i r, M @ i = Some r -> d @ i = Some (map (fun k => (k, D i k)) r.*1).
Proof.
  intros HM Hd Hl Hc (O1 & O2 & O3) i r Hr. pose proof (zlook_Some_lt _ _ _ Hr) as Hi.
  destruct (zlook_lt deno i) as [n Hn]; [lia|]. destruct (O3 _ _ Hn) as (n' & Hn' & Hk). rewrite Hn'. f_equal.
  assert (Sr : is_map r) by (unfold is_matrix in HM; rewrite Forall_forall in HM; by eapply HM, zlook_elem).
  apply map_eq_of.
  - specialize (O2 Hd). unfold is_matrix in O2. rewrite Forall_forall in O2. by eapply O2, zlook_elem.
  - done.
  - intros k. destruct (Hk k) as [H1 H2]. case_bool_decide as Hin.
    + apply H1. apply elem_of_list_fmap in Hin as ([k' v] & -> & Hin). exists v. apply elem_of_coeffs. eauto.
    + rewrite H2.
      * apply mfind_none. intros Hx. apply Hin. by eapply Hc.
      * intros (v & (r' & Hr' & Hin')%elem_of_coeffs). assert (r' = r) as -> by congruence. apply Hin. apply elem_of_list_fmap. by exists (k, v).
Qed.
Lemma deno_covered M deno d D : zlen deno = zlen M -> covered M deno -> overwritten deno d (cell M) D -> covered M d.
Proof.
  intros Hl Hc (O1 & O2 & O3) i r n Hr Hn k Hk. pose proof (zlook_Some_lt _ _ _ Hr) as Hi.
  destruct (zlook_lt deno i) as [n0 Hn0]; [lia|]. destruct (O3 _ _ Hn0) as (n' & Hn' & Hk'). assert (n' = n) as -> by congruence.
  destruct (decide (k ∈ r.*1)) as [|Hno]; [done|]. destruct (Hk' k) as [_ H2].
  assert (Hnc : ~ cell M i k).
  { intros (v & (r' & Hr' & Hin')%elem_of_coeffs). assert (r' = r) as -> by congruence. apply Hno. apply elem_of_list_fmap. by exists (k, v). }
  specialize (H2 Hnc). apply mfind_keys in Hk as [v Hv]. rewrite Hv in H2. eapply Hc; [done..|]. apply mfind_keys. eauto.
Qed.

Lemma valued_F f : valued f -> exists nc l, fl_arr f = Some (nc, l) /\ 0 < nc /\ zlen l = nc * fl_expected f /\
  forall i c, 0 <= i < fl_expected f -> 0 <= c < nc -> l @ (i * nc + c) = Some (Some (val f i c)).
Proof.
  intros (nc & l & E & Hn & Hl & HF). exists nc, l. split; [done|]. split; [done|]. split; [done|]. intros i c Hi Hc.
  destruct (zlook_lt l (i * nc + c)) as [x Hx]; [nia|]. rewrite Hx. f_equal.
  unfold val, value. rewrite E. replace ((0 <=? c) && (c <? nc)) with true by lia. rewrite Hx. cbn.
  rewrite Forall_forall in HF. specialize (HF x (zlook_elem _ _ _ Hx)). by destruct x.
Qed.
Lemma valued_consistent f nc l : fl_arr f = Some (nc, l) -> 0 < nc -> zlen l = nc * fl_expected f -> consistent f = true.
Proof.
  intros E Hn Hl. unfold consistent, tuples. rewrite E. replace (nc =? 0) with false by lia. rewrite Hl, Z.mul_comm, Z.div_mul by lia. lia.
Qed.
Lemma reached_row (M : matrix) i : (exists r : row, M @ i = Some r /\ r <> []) <-> row_reached M i.
Proof.
  unfold row_reached. setoid_rewrite elem_of_coeffs. split.
  - intros (r & Hr & Hne). destruct r as [|[j v] r]; [done|]. exists j, v, ((j, v) :: r). split; [done|]. apply elem_of_list_here.
  - intros (j & v & r & Hr & Hin). exists r. split; [done|]. intros ->. by apply elem_of_nil in Hin.
Qed.
Lemma contrib_interpolated M src trg i c r : M @ i = Some r -> contrib (divisor M src trg i) (val src) c r = interpolated M src trg i c.
Proof. intros H. unfold interpolated. by rewrite (total_row M i r (fun j v => v / divisor M src trg i j * val src j c)%Qc H). Qed.

Lemma withArr_support f nc l : same_support (withArr f nc l) f.
Proof. done. Qed.
Lemma ready_withArr r src trg nc l : ready r src trg -> ready r src (withArr trg nc l).
Proof. done. Qed.
Lemma ready_deno r src trg : base r -> ready r src trg ->
  exists d d', computeDeno (rm_mat r) (rm_deno r) (rm_denoR r) (fl_nature src) src trg = Ok (d, d') /\
    overwritten (rm_deno r) d (cell (rm_mat r)) (divisor (rm_mat r) src trg) /\
    overwritten (rm_denoR r) d' (fun j i => cell (rm_mat r) i j) (fun j i => rdivisor (rm_mat r) src trg i j).
Proof.
  intros (I1 & I2 & I3 & I5) ((En & _) & (C1 & C2) & Hn & Ms & Mt & Hd & Hic).
  apply computeDeno_ok; try done. by rewrite <- C2.
Qed.
Lemma underground_ok r src trg isDft dft : base r -> covered (rm_mat r) (rm_deno r) -> ready r src trg -> valued src -> receives trg src -> (isDft = false -> fl_arr trg <> None) ->
  defined (rm_mat r) src trg ->
  exists r' trg', transferUnderground r src trg isDft dft = (Ok tt, (r', trg')) /\ kept r r' /\ same_support trg' trg /\ components trg' = components src /\
    (forall i c, 0 <= i < fl_expected trg -> 0 <= c < default 0 (components src) ->
      (row_reached (rm_mat r) i -> value trg' i c = Some (interpolated (rm_mat r) src trg i c)) /\
      (~ row_reached (rm_mat r) i -> value trg' i c = if isDft then Some dft else value trg i c)) /\
    exists d d', overwritten (rm_deno r) d (cell (rm_mat r)) (divisor (rm_mat r) src trg) /\ overwritten (rm_denoR r) d' (fun j i => cell (rm_mat r) i j) (fun j i => rdivisor (rm_mat r) src trg i j) /\
      r' = RM (rm_src r) (rm_trg r) (rm_mat r) d d'.
Proof.
  intros HI I4 HR HV [HA Hcomp] Hpart HD.
  destruct (valued_F _ HV) as (nc & input & Es & Hn & Hl & HF).
  pose proof HI as (I1 & I2 & I3 & I5).
  pose proof HR as ((En & s & t & Hs & Ht & D1 & D2 & E1 & E2) & (C1 & C2) & _).
  unfold transferUnderground. rewrite Es, Hs, Ht. unfold check.
  rewrite (valued_consistent _ _ _ Es Hn Hl). cbn [negb].
  replace (ft_disc s =? fl_disc src) with true by lia. replace (ft_disc t =? fl_disc trg) with true by lia. cbn [negb].
  rewrite bool_decide_false by (intros Hx; by apply Hx). replace (fl_expected src =? ft_expected s) with true by lia. cbn [negb].
  assert (Hgo : forall trg0 out, ready r src trg0 -> fl_expected trg0 = fl_expected trg -> (forall i j, divisor (rm_mat r) src trg0 i j = divisor (rm_mat r) src trg i j) ->
     (forall i j, rdivisor (rm_mat r) src trg0 i j = rdivisor (rm_mat r) src trg i j) -> same_support trg0 trg ->
     zlen out = nc * fl_expected trg -> 
     exists d d' out', computeDeno (rm_mat r) (rm_deno r) (rm_denoR r) (fl_nature src) src trg0 = Ok (d, d') /\
       overwritten (rm_deno r) d (cell (rm_mat r)) (divisor (rm_mat r) src trg) /\
       overwritten (rm_denoR r) d' (fun j i => cell (rm_mat r) i j) (fun j i => rdivisor (rm_mat r) src trg i j) /\
       computeProduct (rm_mat r) d input nc isDft dft out = Ok out' /\ zlen out' = zlen out /\
       forall i c q, rm_mat r @ i = Some q -> 0 <= c < nc -> out' @ (i * nc + c) =
        match q with [] => if isDft then Some (Some dft) else out @ (i * nc + c) | _ => Some (Some (interpolated (rm_mat r) src trg i c)) end).
  { intros trg0 out HR0 Ex Ed Ed' Hsup Hlo. destruct (ready_deno r src trg0 HI HR0) as (d & d' & Ec & O1 & O2).
    destruct (computeProduct_ok (rm_mat r) d (divisor (rm_mat r) src trg0) input nc (val src) isDft dft out (fl_expected src)) as (out' & Ep & Lp & Vp); [lia| |by rewrite <- C2| | |done|].
    - rewrite C1. done.
    - intros i j v Hin. rewrite Ed. by eapply HD.
    - intros i q Hq _. eapply deno_rows; [exact I1|exact I2|done|done|done|done].
    - exists d, d', out'. split; [done|]. split; [|split; [|split; [done|split; [done|]]]].
      + destruct O1 as (A1 & A2 & A3). split; [done|]. split; [done|]. intros p q Hq. destruct (A3 p q Hq) as (q' & ? & A4). exists q'. split; [done|]. intros k. rewrite <- Ed. apply A4.
      + destruct O2 as (A1 & A2 & A3). split; [done|]. split; [done|]. intros p q Hq. destruct (A3 p q Hq) as (q' & ? & A4). exists q'. split; [done|]. intros k. rewrite <- Ed'. apply A4.
      + intros i c q Hq Hc. rewrite (Vp i c q Hq Hc). destruct q as [|e q]; [done|]. do 2 f_equal.
        rewrite contrib_interpolated by done. unfold interpolated, total. f_equal. apply map_ext. intros [[i' j] v]. by rewrite Ed. }
  assert (Hval : forall trg0 (out out' : list (option Qc)), zlen out' = nc * fl_expected trg -> (forall i c q, rm_mat r @ i = Some q -> 0 <= c < nc -> out' @ (i * nc + c) =
        match q with [] => if isDft then Some (Some dft) else out @ (i * nc + c) | _ => Some (Some (interpolated (rm_mat r) src trg i c)) end) ->
     (isDft = false -> fl_arr trg = Some (nc, out)) ->
    forall i c, 0 <= i < fl_expected trg -> 0 <= c < default 0 (components src) ->
      (row_reached (rm_mat r) i -> value (withArr trg0 nc out') i c = Some (interpolated (rm_mat r) src trg i c)) /\
      (~ row_reached (rm_mat r) i -> value (withArr trg0 nc out') i c = if isDft then Some dft else value trg i c)).
  { intros trg0 out out' Hlo HO Hp i c Hi Hc. unfold components in Hc. rewrite Es in Hc. cbn in Hc.
    assert (Hv : value (withArr trg0 nc out') i c = default None (out' @ (i * nc + c))).
    { unfold value. cbn. by replace ((0 <=? c) && (c <? nc)) with true by lia. }
    rewrite Hv. destruct (zlook_lt (rm_mat r) i) as [q Hq]; [lia|]. rewrite (HO i c q Hq) by lia. rewrite <- reached_row. split.
    - intros (q' & Hq' & Hne). assert (q' = q) as -> by congruence. by destruct q.
    - intros Hno. destruct q as [|e q]; [|destruct Hno; eauto]. destruct isDft; [done|]. unfold value. rewrite Hp by done. by replace ((0 <=? c) && (c <? nc)) with true by lia. }
  destruct (fl_arr trg) as [[nc' out]|] eqn:Et.
  - destruct Hcomp as [|Hcomp]; [done|]. unfold components in Hcomp. rewrite Et, Es in Hcomp. cbn in Hcomp. injection Hcomp as ->.
    destruct (HA nc out Et) as [_ Hlo]. rewrite (valued_consistent trg nc out Et Hn Hlo). cbn [negb]. rewrite Z.eqb_refl. cbn [negb].
    destruct (Hgo trg out) as (d & d' & out' & -> & O1 & O2 & -> & Lp & Vp); [done..|].
    eexists _, _. split; [done|]. split; [split; [done|split; [done|split; [done|apply O2]]]|]. split; [done|]. split; [unfold components; by rewrite Es|]. split; [|eauto 10].
    apply (Hval trg out out'); [lia|done|done].
  - destruct isDft; [|by destruct Hpart]. cbn [negb].
    destruct (Hgo (withArr trg nc (malloc Qc (nc * fl_expected trg))) (malloc Qc (nc * fl_expected trg))) as (d & d' & out' & -> & O1 & O2 & -> & Lp & Vp); [done..| |].
    { destruct HR as (_ & _ & _ & _ & (? & _) & _). rewrite zlen_malloc; nia. }
    eexists _, _. split; [done|]. split; [split; [done|split; [done|split; [done|apply O2]]]|]. split; [done|]. split; [unfold components; by rewrite Es|]. split; [|eauto 10].
    apply (Hval _ (malloc Qc (nc * fl_expected trg))); [|done|done]. destruct HR as (_ & _ & _ & _ & (? & _) & _). rewrite Lp, zlen_malloc; nia.
Qed.

Lemma reverse_ok r src trg dft : base r -> ready r src trg -> valued trg -> receives src trg -> rdefined (rm_mat r) src trg ->
  exists r' src', reverseTransfer r src trg dft = (Ok tt, (r', src')) /\ kept r r' /\ same_support src' src /\ components src' = components trg /\
    (forall j c, 0 <= j < fl_expected src -> 0 <= c < default 0 (components trg) ->
      (col_reached (rm_mat r) j -> value src' j c = Some (rinterpolated (rm_mat r) src trg j c)) /\
      (~ col_reached (rm_mat r) j -> value src' j c = Some dft)).
Proof.
  intros HI HR HV [HA Hcomp] HD.
  destruct (valued_F _ HV) as (nc & input & Es & Hn & Hl & HF).
  pose proof HI as (I1 & I2 & I3 & I5).
  pose proof HR as ((En & s & t & Hs & Ht & D1 & D2 & E1 & E2) & (C1 & C2) & _).
  unfold reverseTransfer. rewrite Es, Hs, Ht. unfold check.
  rewrite (valued_consistent _ _ _ Es Hn Hl). cbn [negb].
  replace (ft_disc s =? fl_disc src) with true by lia. replace (ft_disc t =? fl_disc trg) with true by lia. cbn [negb].
  rewrite bool_decide_false by (intros Hx; by apply Hx). replace (fl_expected trg =? ft_expected t) with true by lia. cbn [negb].
  assert (Hgo : forall src0 out, ready r src0 trg -> (forall i j, rdivisor (rm_mat r) src0 trg i j = rdivisor (rm_mat r) src trg i j) ->
     fl_nature src0 = fl_nature src -> zlen out = nc * fl_expected src ->
     exists d d' out', computeDeno (rm_mat r) (rm_deno r) (rm_denoR r) (fl_nature src0) src0 trg = Ok (d, d') /\ zlen d' = zlen (rm_denoR r) /\
       computeReverseProduct (rm_mat r) d' input nc dft out = Ok out' /\ zlen out' = zlen out /\
       forall j c, 0 <= j < fl_expected src -> 0 <= c < nc ->
        (col_reached (rm_mat r) j -> out' @ (j * nc + c) = Some (Some (rinterpolated (rm_mat r) src trg j c))) /\
        (~ col_reached (rm_mat r) j -> out' @ (j * nc + c) = Some (Some dft))).
  { intros src0 out HR0 Ed Hsup Hlo. destruct (ready_deno r src0 trg HI HR0) as (d & d' & Ec & O1 & O2).
    destruct O2 as (A1 & A2 & A3).
    destruct (computeReverseProduct_ok (rm_mat r) d' (rdivisor (rm_mat r) src0 trg) input nc (val trg) dft out (fl_expected src)) as (out' & Ep & Lp & Vp); [lia|lia|done|by rewrite <- C2|..].
    - intros i j v Hin. rewrite Ed. by eapply HD.
    - intros i j v Hin. pose proof (I5 _ _ _ Hin) as Hj. destruct (zlook_lt (rm_denoR r) j) as [q Hq]; [lia|]. destruct (A3 j q Hq) as (q' & Hq' & A4).
      exists q'. split; [done|]. apply A4. by exists v.
    - intros i c Hi Hc. apply HF; lia.
    - exists d, d', out'. split; [done|]. split; [done|]. split; [done|]. split; [done|]. intros j c Hj Hc. destruct (Vp j c Hj Hc) as [V1 V2]. split; [|done].
      intros Hre. rewrite V1 by done. do 2 f_equal. unfold contribR, rinterpolated, total. f_equal. apply map_ext. intros [[i j'] v]. by rewrite Ed. }
  assert (Hval : forall src0 (out' : list (option Qc)), (forall j c, 0 <= j < fl_expected src -> 0 <= c < nc ->
        (col_reached (rm_mat r) j -> out' @ (j * nc + c) = Some (Some (rinterpolated (rm_mat r) src trg j c))) /\
        (~ col_reached (rm_mat r) j -> out' @ (j * nc + c) = Some (Some dft))) ->
    forall j c, 0 <= j < fl_expected src -> 0 <= c < default 0 (components trg) ->
      (col_reached (rm_mat r) j -> value (withArr src0 nc out') j c = Some (rinterpolated (rm_mat r) src trg j c)) /\
      (~ col_reached (rm_mat r) j -> value (withArr src0 nc out') j c = Some dft)).
  { intros src0 out' HO j c Hj Hc. unfold components in Hc. rewrite Es in Hc. cbn in Hc.
    assert (Hv : value (withArr src0 nc out') j c = default None (out' @ (j * nc + c))).
    { unfold value. cbn. by replace ((0 <=? c) && (c <? nc)) with true by lia. }
    rewrite Hv. destruct (HO j c Hj Hc) as [V1 V2]. split; intros Hx; [by rewrite V1|by rewrite V2]. }
  destruct (fl_arr src) as [[nc' out]|] eqn:Et.
  - destruct Hcomp as [|Hcomp]; [done|]. unfold components in Hcomp. rewrite Et, Es in Hcomp. cbn in Hcomp. injection Hcomp as ->.
    destruct (HA nc out Et) as [_ Hlo]. rewrite (valued_consistent src nc out Et Hn Hlo). cbn [negb]. rewrite Z.eqb_refl. cbn [negb].
    destruct (Hgo src out) as (d & d' & out' & -> & Ld & -> & Lp & Vp); [done..|].
    eexists _, _. split; [done|]. split; [by repeat split|]. split; [done|]. split; [unfold components; by rewrite Es|]. by apply Hval.
  - destruct (Hgo (withArr src nc (malloc Qc (nc * fl_expected src))) (malloc Qc (nc * fl_expected src))) as (d & d' & out' & -> & Ld & -> & Lp & Vp); [done..| |].
    { destruct HR as (_ & _ & _ & (? & _) & _). rewrite zlen_malloc; nia. }
    eexists _, _. split; [done|]. split; [by repeat split|]. split; [done|]. split; [unfold components; by rewrite Es|]. by apply Hval.
Qed.

(** ** Histories *)
Lemma foldM_keeps {A St} (P : St -> Prop) (f : St -> A -> res St) l s s' :
  (forall s x s', x ∈ l -> P s -> f s x = Ok s' -> P s') -> P s -> foldM f l s = Ok s' -> P s'.
Proof.
  revert s. induction l as [|x l IH]; intros s H Hs; cbn [foldM]; [by intros [= ->]|].
  destruct (f s x) as [s1| | |] eqn:E; cbn [bind]; try done. apply IH.
  - intros. eapply H; [by apply elem_of_list_further|done..].
  - eapply H; [apply elem_of_list_here|done..].
Qed.
Definition good (M : matrix) (cov : bool) (N : matrix) : Prop := zlen N = zlen M /\ is_matrix N /\ (cov = true -> covered M N).
Lemma good_vput M cov N N' i j v x : (i, j, v) ∈ coeffs M -> good M cov N -> vput N i j x = Ok N' -> good M cov N'.
Proof.
  intros Hin (G1 & G2 & G3) E. apply elem_of_coeffs in Hin as (r & Hr & Hin). pose proof (zlook_Some_lt _ _ _ Hr) as Hi.
  destruct (zlook_lt N i) as [n Hn]; [lia|]. rewrite (vput_ok _ _ _ _ _ Hn) in E. injection E as <-. split; [by rewrite zlen_zset|]. split.
  - unfold is_matrix, zset. apply Forall_insert; [done|]. apply mput_sorted. unfold is_matrix in G2. rewrite Forall_forall in G2. by eapply G2, zlook_elem.
  - intros Hc. specialize (G3 Hc). intros p q m Hq. rewrite zlook_zset by lia. destruct (p =? i) eqn:E; [|by apply G3].
    apply Z.eqb_eq in E as ->. intros [= <-] k [->|Hk]%mput_keys; [|by eapply G3]. assert (q = r) as -> by congruence. apply elem_of_list_fmap. by exists (j, v).
Qed.
Lemma zlen_vput N i j x N' : vput N i j x = Ok N' -> zlen N' = zlen N.
Proof. unfold vput. destruct (rd N i) as [r| | |]; cbn [bind]; try done. unfold wr. destruct (_ : bool); [|done]. intros [= <-]. by rewrite zlen_zset. Qed.
Lemma computeDeno_keeps M deno denoR nat src trg cov d d' : good M cov deno ->
  computeDeno M deno denoR nat src trg = Ok (d, d') -> good M cov d /\ zlen d' = zlen denoR.
Proof.
  intros G. unfold computeDeno. destruct nat; [done|..].
  - unfold ComputeRowSumAndColSum. rewrite (sums_loop M (fun s i j x => vput s i j x)).
    destruct (foldM _ (coeffs M) deno) as [d1| | |] eqn:E1; cbn [bind]; try done.
    rewrite (rows_coeffs M (fun idx denoR '(j, _) => vput denoR j idx (mget j (addvals (coeffs M) [])))).
    destruct (foldM _ (coeffs M) denoR) as [d2| | |] eqn:E2; cbn [bind]; try done. intros [= <- <-]. split.
    + eapply (foldM_keeps (good M cov)); [|exact G|exact E1]. intros s [[i j] v] s' Hin Hs. by eapply good_vput.
    + eapply (foldM_keeps (fun s => zlen s = zlen denoR)); [|done|exact E2]. intros s [[i j] v] s' Hin Hs Hv%zlen_vput. lia.
  - destruct (minusOne _ _ _ _) as [[a b]| | |]; cbn [bind]; try done.
    rewrite (rows_coeffs M (fun idx '(deno, denoR) '(j, _) =>
        let* x := rd a j in let* deno := vput deno idx j x in
        let* y := rd b idx in let* denoR := vput denoR j idx y in Ok (deno, denoR))).
    intros E. eapply (foldM_keeps (fun '(x, y) => good M cov x /\ zlen y = zlen denoR)) in E; [exact E| |done].
    intros [s1 s2] [[i j] v] [t1 t2] Hin [H1 H2]. destruct (rd a j); cbn [bind]; try done. destruct (vput s1 i j _) eqn:Ev; cbn [bind]; try done.
    destruct (rd b i); cbn [bind]; try done. destruct (vput s2 j i _) eqn:Ev2; cbn [bind]; try done. intros [= <- <-]. split; [by eapply good_vput|]. apply zlen_vput in Ev2. lia.
  - unfold ComputeColSumAndRowSum. rewrite (sums_loop M (fun s i j x => vput s j i x)).
    destruct (foldM _ (coeffs M) denoR) as [d1| | |] eqn:E1; cbn [bind]; try done.
    rewrite (rows_coeffs M (fun idx deno '(j, _) => vput deno idx j (mget j (addvals (coeffs M) [])))).
    destruct (foldM _ (coeffs M) deno) as [d2| | |] eqn:E2; cbn [bind]; try done. intros [= <- <-]. split.
    + eapply (foldM_keeps (good M cov)); [|exact G|exact E2]. intros s [[i j] v] s' Hin Hs. by eapply good_vput.
    + eapply (foldM_keeps (fun s => zlen s = zlen denoR)); [|done|exact E1]. intros s [[i j] v] s' Hin Hs Hv%zlen_vput. lia.
  - destruct (minusOne _ _ _ _) as [[a b]| | |]; cbn [bind]; try done.
    rewrite (rows_coeffs M (fun idx '(deno, denoR) '(j, _) =>
        let* x := rd a idx in let* deno := vput deno idx j x in
        let* y := rd b j in let* denoR := vput denoR j idx y in Ok (deno, denoR))).
    intros E. eapply (foldM_keeps (fun '(x, y) => good M cov x /\ zlen y = zlen denoR)) in E; [exact E| |done].
    intros [s1 s2] [[i j] v] [t1 t2] Hin [H1 H2]. destruct (rd a i); cbn [bind]; try done. destruct (vput s1 i j _) eqn:Ev; cbn [bind]; try done.
    destruct (rd b j); cbn [bind]; try done. destruct (vput s2 j i _) eqn:Ev2; cbn [bind]; try done. intros [= <- <-]. split; [by eapply good_vput|]. apply zlen_vput in Ev2. lia.
Qed.

(** What any transfer leaves of the remapper, whatever its fields. *)
Definition refreshed (r r' : remapper) : Prop :=
  r' = r \/ exists d d' nat src trg, computeDeno (rm_mat r) (rm_deno r) (rm_denoR r) nat src trg = Ok (d, d') /\ r' = RM (rm_src r) (rm_trg r) (rm_mat r) d d'.
Ltac crush_refreshed :=
  repeat match goal with
  | |- context [if ?b then _ else _] => destruct b
  | |- context [match fl_arr ?f with _ => _ end] => destruct (fl_arr f) as [[? ?]|]
  | |- context [match rm_src ?f with _ => _ end] => destruct (rm_src f) eqn:?
  | |- context [match rm_trg ?f with _ => _ end] => destruct (rm_trg f) eqn:?
  | |- context [match computeDeno ?a ?b ?c ?d ?e ?f with _ => _ end] => destruct (computeDeno a b c d e f) as [[? ?]| | |] eqn:?
  | |- context [match computeProduct ?a ?b ?c ?d ?e ?f ?g with _ => _ end] => destruct (computeProduct a b c d e f g)
  | |- context [match computeReverseProduct ?a ?b ?c ?d ?e ?f with _ => _ end] => destruct (computeReverseProduct a b c d e f)
  end; cbn [snd fst];
  first [by left | right; match goal with H : computeDeno _ _ _ _ _ _ = Ok _ |- _ => eexists _, _, _, _, _; split; [exact H|]; congruence end].
Lemma underground_refreshed r src trg isDft dft : refreshed r (fst (snd (transferUnderground r src trg isDft dft))).
Proof. unfold transferUnderground, check. cbv zeta. crush_refreshed. Qed.
Lemma reverse_refreshed r src trg dft : refreshed r (fst (snd (reverseTransfer r src trg dft))).
Proof. unfold reverseTransfer, check. cbv zeta. crush_refreshed. Qed.
Lemma after_ok e r : after e = Ok r -> r = fst (snd e).
Proof. destruct e as [[] [r' f]]; cbn; by intros [= ->]. Qed.

Lemma mput_end {V} k (v : V) m : Forall (fun a => a < k) m.*1 -> mput k v m = m ++ [(k, v)].
Proof.
  induction m as [|[b x] m IH]; intros H; [done|]. cbn [fmap list_fmap fst] in H. inversion H; subst. cbn [mput].
  replace (k <? b) with false by lia. replace (k =? b) with false by lia. cbn [app]. f_equal. by apply IH.
Qed.
Lemma rebuilt (P : Qc -> bool) (r acc : row) : is_map r -> (forall a b, a ∈ acc.*1 -> b ∈ r.*1 -> a < b) ->
  fold_left (fun new '(j, v) => if P v then new else mput j v new) r acc = acc ++ List.filter (fun '(_, v) => negb (P v)) r.
Proof.
  unfold is_map. revert acc. induction r as [|[j v] r IH]; intros acc Hs Ha; cbn [fold_left List.filter]; [by rewrite app_nil_r|].
  cbn [fmap list_fmap fst] in Hs. inversion Hs as [|? ? Hs1 Hs2]; subst. rewrite Forall_forall in Hs2.
  destruct (P v) eqn:E; cbn [negb].
  - apply IH; [done|]. intros a b Hx Hb. apply Ha; [done|]. cbn. by apply elem_of_list_further.
  - rewrite mput_end. 2: { apply Forall_forall. intros a Hx. apply Ha; [done|]. cbn. apply elem_of_list_here. }
    rewrite IH; [by rewrite <- app_assoc|done|]. intros a b. rewrite fmap_app, elem_of_app. intros [Hx|Hx] Hb.
    + apply Ha; [done|]. cbn. by apply elem_of_list_further.
    + cbn in Hx. apply elem_of_list_singleton in Hx as ->. by apply Hs2.
Qed.
Definition kept_row (eps : Qc) (r : row) : row := List.filter (fun '(_, v) => negb (small eps v)) r.
Lemma nullify_mat r eps : is_matrix (rm_mat r) ->
  map (fun row => fold_left (fun new '(j, v) => if small eps v then new else mput j v new) row []) (rm_mat r) = map (kept_row eps) (rm_mat r).
Proof.
  intros HM. unfold is_matrix in HM. induction (rm_mat r) as [|q M IH]; [done|]. inversion HM; subst. cbn [map]. f_equal; [|by apply IH].
  rewrite (rebuilt (small eps)); [done|done|]. intros a b ?%elem_of_nil. done.
Qed.
Lemma kept_row_elem eps r j v : (j, v) ∈ kept_row eps r <-> (j, v) ∈ r /\ small eps v = false.
Proof. unfold kept_row. rewrite !elem_of_list_In, filter_In. destruct (small eps v); cbn; naive_solver. Qed.
Lemma kept_row_map eps r : is_map r -> is_map (kept_row eps r).
Proof.
  unfold is_map, kept_row. induction r as [|[j v] r IH]; intros H; [done|]. cbn [fmap list_fmap fst] in H. inversion H as [|? ? H1 H2]; subst.
  cbn [List.filter]. destruct (negb (small eps v)); [|by apply IH]. cbn. constructor; [by apply IH|].
  rewrite Forall_forall in H2 |- *. intros a ([a' x] & -> & Hin)%elem_of_list_fmap. apply (kept_row_elem eps) in Hin as [Hin _]. apply H2. apply elem_of_list_fmap. by exists (a', x).
Qed.
Lemma zlook_map_kept eps (M : matrix) i : (map (kept_row eps) M) @ i = kept_row eps <$> M @ i.
Proof. apply zlook_map. Qed.
Lemma base_empty s t : base (RM s t [] [] []).
Proof. split; [apply Forall_nil_2|]. split; [apply Forall_nil_2|]. split; [done|]. intros i j v H. by apply elem_of_nil in H. Qed.
Lemma aligned_empty s t : aligned false (RM s t [] [] []).
Proof. split; [|intros _; apply Forall_nil_2]. intros i r n H. apply zlook_elem in H. by apply elem_of_nil in H. Qed.
Lemma step_base r o r' : base r -> well_formed o -> step r o = Ok r' -> base r'.
Proof.
  intros HB HW E. pose proof HB as (B1 & B2 & B3 & B4).
  assert (Hre : forall r', refreshed r r' -> base r').
  { intros r0 [->|(d & d' & nat & src & trg & Hc & ->)]; [done|].
    destruct (computeDeno_keeps _ _ _ _ _ _ false _ _ (conj B3 (conj B2 (fun H => False_ind _ (Bool.diff_false_true H)))) Hc) as [(G1 & G2 & _) G3].
    split; [done|]. split; [done|]. split; [done|]. cbn. by rewrite G3. }
  destruct o as [s t M|eps|src trg dft|src trg|src trg dft]; cbn [step] in E.
  - injection E as <-. destruct HW as [HM Hs]. unfold setCrudeMatrix. destruct (negb _) eqn:E1; cbn [snd]; [apply base_empty|].
    match goal with |- context [if existsb ?f M then _ else _] => destruct (existsb f M) eqn:E2 end; cbn [snd]; [apply base_empty|].
    split; [done|]. cbn [rm_mat rm_deno rm_denoR]. split; [apply Forall_replicate; constructor|]. split; [unfold zlen; by rewrite replicate_length|].
    intros i j v (r1 & Hr1 & Hin)%elem_of_coeffs. unfold zlen. rewrite replicate_length.
    destruct ((j <? 0) || (ft_expected s <=? j)) eqn:E3; [|lia]. exfalso. rewrite <- Bool.not_true_iff_false in E2. apply E2. apply existsb_exists.
    exists r1. split; [by apply elem_of_list_In, zlook_elem with i|]. apply existsb_exists. exists (j, v). split; [by apply elem_of_list_In|done].
  - injection E as <-. unfold nullifiedTinyCoeffInCrudeMatrixAbs. cbn [snd]. destruct (0 <? _); [|done]. rewrite nullify_mat by done.
    split; [|split; [done|split]]; cbn [rm_mat rm_deno rm_denoR].
    + unfold is_matrix in *. apply Forall_forall. intros q (q' & -> & Hq)%elem_of_list_fmap. rewrite Forall_forall in B1. by apply kept_row_map, B1.
    + unfold zlen in *. by rewrite map_length.
    + intros i j v (q & Hq & Hin)%elem_of_coeffs. rewrite zlook_map_kept in Hq. destruct (rm_mat r @ i) as [q0|] eqn:Eq; [|done]. cbn in Hq. injection Hq as <-.
      apply kept_row_elem in Hin as [Hin _]. eapply B4, elem_of_coeffs. eauto.
  - apply after_ok in E as ->. apply Hre, underground_refreshed.
  - apply after_ok in E as ->. apply Hre, underground_refreshed.
  - apply after_ok in E as ->. apply Hre, reverse_refreshed.
Qed.
Lemma step_aligned used r o r' : base r -> aligned used r -> (used = true -> forall eps, o <> Nullify eps) -> step r o = Ok r' ->
  aligned (match o with SetMatrix _ _ _ => false | Nullify _ => used | _ => true end) r'.
Proof.
  intros (B1 & B2 & B3 & B4) (A1 & A2) Hu E.
  assert (Hre : forall r', refreshed r r' -> aligned true r').
  { intros r0 [->|(d & d' & nat & src & trg & Hc & ->)]; [by split|].
    destruct (computeDeno_keeps _ _ _ _ _ _ true _ _ (conj B3 (conj B2 (fun _ => A1))) Hc) as [(G1 & G2 & G3) _]. split; [by apply G3|done]. }
  destruct o as [s t M|eps|src trg dft|src trg|src trg dft]; cbn [step] in E.
  - injection E as <-. unfold setCrudeMatrix.
    destruct (negb _); [apply aligned_empty|]. match goal with |- context [if existsb ?f M then _ else _] => destruct (existsb f M) end; [apply aligned_empty|]. cbn [snd]. split; cbn [rm_mat rm_deno].
    + intros i q n _ Hn k Hk. apply zlook_elem, elem_of_replicate_inv in Hn as ->. by apply elem_of_nil in Hk.
    + intros _. by apply Forall_replicate.
  - injection E as <-. unfold nullifiedTinyCoeffInCrudeMatrixAbs. cbn [snd]. destruct (0 <? _); [|done]. rewrite nullify_mat by done.
    destruct used; [by destruct (Hu eq_refl eps)|]. split; [|done]. cbn [rm_mat rm_deno]. specialize (A2 eq_refl). rewrite Forall_forall in A2.
    intros i q n _ Hn k Hk. apply zlook_elem, A2 in Hn as ->. by apply elem_of_nil in Hk.
  - apply after_ok in E as ->. apply Hre, underground_refreshed.
  - apply after_ok in E as ->. apply Hre, underground_refreshed.
  - apply after_ok in E as ->. apply Hre, reverse_refreshed.
Qed.
Lemma run_base ops r : Forall well_formed ops -> run ops = Ok r -> base r.
Proof.
  intros HW. unfold run. apply (foldM_keeps base).
  - intros s o s' Ho Hs. apply step_base; [done|]. rewrite Forall_forall in HW. by apply HW.
  - apply base_empty.
Qed.
Lemma run_aligned ops r : Forall well_formed ops -> clean ops = true -> run ops = Ok r -> base r /\ covered (rm_mat r) (rm_deno r).
Proof.
  intros HW HC HR. split; [by eapply run_base|]. unfold run, clean in *.
  assert (H : forall ops used s, Forall well_formed ops -> clean_from used ops = true -> base s -> aligned used s -> foldM step ops s = Ok r -> covered (rm_mat r) (rm_deno r)).
  { clear. induction ops as [|o ops IH]; intros used s HW HC HB HA; cbn [foldM]; [intros [= <-]; apply HA|].
    inversion HW as [|? ? W1 W2]; subst. destruct (step s o) as [s'| | |] eqn:E; cbn [bind]; try done.
    assert (Hu : used = true -> forall eps, o <> Nullify eps) by (intros -> eps ->; by cbn in HC).
    eapply IH; [done| |by eapply step_base|by eapply step_aligned]. destruct o; cbn [clean_from] in HC; try done. by destruct used. }
  eapply H; [exact HW|exact HC| | |exact HR].
  - apply base_empty.
  - apply aligned_empty.
Qed.
