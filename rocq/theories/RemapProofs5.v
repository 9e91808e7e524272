(** Proofs about the remapper: operations on the crude matrix, transposition. *)
From Coq Require Import QArith Qcanon Qcabs ZifyBool ZifyNat.
From Verif Require Import Base RemapModel RemapSpec RemapProofs RemapProofs2 RemapProofs3 RemapProofs4.
Local Open Scope Z_scope.

Lemma SS_lt_NoDup (l : list Z) : StronglySorted Z.lt l -> NoDup l.
Proof. induction 1 as [|x l H1 IH H2]; constructor; [|done]. rewrite Forall_forall in H2. intros ?%H2. lia. Qed.
Lemma is_matrix_row (M : matrix) i (r : row) : is_matrix M -> M @ i = Some r -> is_map r.
Proof. intros H Hr. unfold is_matrix in H. rewrite Forall_forall in H. by eapply H, zlook_elem. Qed.
(** One coefficient by row and column. *)
Lemma coeffs_fun M i j v w : is_matrix M -> (i, j, v) ∈ coeffs M -> (i, j, w) ∈ coeffs M -> v = w.
Proof.
  intros HM (r & Hr & H1)%elem_of_coeffs (r' & Hr' & H2)%elem_of_coeffs. assert (r' = r) as -> by congruence.
  pose proof (is_matrix_row _ _ _ HM Hr) as Hm. apply mfind_elem in H1, H2; try done. congruence.
Qed.
Lemma NoDup_expand l : NoDup l.*1 -> Forall (fun '(_, r) => is_map r) l -> NoDup (expand l).
Proof.
  induction l as [|[i r] l IH]; intros Hn Hm; [constructor|]. cbn in Hn. inversion Hn as [|? ? N1 N2]; subst. inversion Hm as [|? ? M1 M2]; subst.
  unfold expand. cbn [map concat]. fold (expand l). apply NoDup_app. split; [|split; [|by apply IH]].
  - apply SS_lt_NoDup in M1. clear -M1. induction r as [|[j v] r IH]; [constructor|]. cbn in M1. inversion M1 as [|? ? N1 N2]; subst. cbn [map]. constructor; [|by apply IH].
    intros ([j' v'] & E & Hin)%elem_of_list_fmap. injection E as -> ->. apply N1. apply elem_of_list_fmap. by exists (j', v').
  - intros [[i' j] v] ([j' v'] & E & _)%elem_of_list_fmap (r' & Hin & _)%elem_of_expand. injection E as -> _ _. apply N1. apply elem_of_list_fmap. by exists (i, r').
Qed.
Lemma NoDup_coeffs M : is_matrix M -> NoDup (coeffs M).
Proof.
  intros HM. rewrite coeffs_irows. apply NoDup_expand.
  - rewrite irows_fst. apply NoDup_fmap_2; [|apply NoDup_seq]. intros a b. apply Nat2Z.inj.
  - apply Forall_forall. intros [i r] Hin. apply elem_of_irows in Hin. by eapply is_matrix_row.
Qed.
Definition swap (e : Z * Z * Qc) : Z * Z * Qc := let '(i, j, v) := e in (j, i, v).
Lemma sumQ_perm l l' : Permutation l l' -> sumQ l = sumQ l'.
Proof. induction 1; [done|by rewrite !sumQ_cons; f_equal|rewrite !sumQ_cons; ring|congruence]. Qed.
Lemma transposed_total M N h : is_matrix M -> is_matrix N -> transposed M N -> total N h = total M (fun i j v => h j i v).
Proof.
  intros HM HN HT. unfold total.
  assert (P : Permutation (coeffs N) (map swap (coeffs M))).
  { apply NoDup_Permutation; [by apply NoDup_coeffs| |].
    - apply NoDup_fmap_2; [|by apply NoDup_coeffs]. intros [[? ?] ?] [[? ?] ?] [= -> -> ->]. done.
    - intros [[j i] v]. rewrite (HT i j v), elem_of_list_fmap. split.
      + intros H. by exists (i, j, v).
      + intros ([[i' j'] v'] & E & H). by injection E as -> -> ->. }
  rewrite (sumQ_perm _ _ (Permutation_map _ P)). f_equal. rewrite map_map. apply map_ext. by intros [[? ?] ?].
Qed.

(** Writings that agree. *)
Lemma vputs_agree {A} (L : list A) (a b : A -> Z) (x : A -> Qc) (N : matrix) :
  (forall e, e ∈ L -> 0 <= a e < zlen N) -> (forall e e', e ∈ L -> e' ∈ L -> a e = a e' -> b e = b e' -> x e = x e') -> Forall (fun r => r = []) N ->
  exists N', foldM (fun N e => vput N (a e) (b e) (x e)) L N = Ok N' /\ zlen N' = zlen N /\ is_matrix N' /\
    forall p k v, (p, k, v) ∈ coeffs N' <-> exists e, e ∈ L /\ a e = p /\ b e = k /\ x e = v.
Proof.
  intros Ha Hx HN. pose (D := fun p k => default 0%Qc (head (omap (fun e => if (a e =? p) && (b e =? k) then Some (x e) else None) L))).
  assert (HD : forall e, e ∈ L -> x e = D (a e) (b e)).
  { intros e He. unfold D. destruct (omap _ L) as [|y l] eqn:E.
    - exfalso. assert (Hin : x e ∈ omap (fun e0 => if (a e0 =? a e) && (b e0 =? b e) then Some (x e0) else None) L).
      { apply elem_of_list_omap. exists e. split; [done|]. by rewrite !Z.eqb_refl. } rewrite E in Hin. by apply elem_of_nil in Hin.
    - assert (Hin : y ∈ omap (fun e0 => if (a e0 =? a e) && (b e0 =? b e) then Some (x e0) else None) L) by (rewrite E; apply elem_of_list_here).
      apply elem_of_list_omap in Hin as (e' & He' & Hy). destruct ((a e' =? a e) && (b e' =? b e)) eqn:E'; [|done]. injection Hy as <-. cbn. apply Hx; [done..|lia|lia]. }
  assert (HM0 : is_matrix N). { unfold is_matrix. eapply Forall_impl; [exact HN|]. intros r ->. constructor. }
  destruct (vputs_ok L a b x D N) as (N' & E & O1 & O2 & O3); [by intros e He; split; [apply Ha|apply HD]|].
  exists N'. split; [done|]. split; [done|]. specialize (O2 HM0). split; [done|]. intros p k v. rewrite elem_of_coeffs. split.
  - intros (r' & Hr' & Hin). pose proof (zlook_Some_lt _ _ _ Hr') as Hp. destruct (zlook_lt N p) as [r Hr]; [lia|].
    destruct (O3 p r Hr) as (r2 & Hr2 & Hk). assert (r2 = r') as -> by congruence. apply mfind_elem in Hin; [|by eapply is_matrix_row]. destruct (Hk k) as [K1 K2].
    destruct (decide (Exists (fun e => a e = p /\ b e = k) L)) as [Hex|Hno].
    + apply Exists_exists in Hex as (e & He & <- & <-). exists e. rewrite K1 in Hin by eauto. rewrite (HD e He). split; [done|]. split; [done|]. split; [done|]. congruence.
    + rewrite K2 in Hin. 2: { intros (e & He & ? & ?). apply Hno. apply Exists_exists. eauto. }
      rewrite Forall_forall in HN. rewrite (HN r) in Hin by (by eapply zlook_elem). done.
  - intros (e & He & <- & <- & <-). destruct (zlook_lt N (a e)) as [r Hr]; [by apply Ha|]. destruct (O3 _ r Hr) as (r' & Hr' & Hk).
    exists r'. split; [done|]. apply mfind_elem; [by eapply is_matrix_row|]. rewrite (HD e He). apply Hk. eauto.
Qed.
Lemma replicate_nil n : Forall (fun r : row => r = []) (replicate n []).
Proof. by apply Forall_replicate. Qed.
Lemma ReverseMatrix_ok M n : is_matrix M -> 0 <= n -> columns_below n M ->
  exists N, ReverseMatrix M n = Ok N /\ zlen N = n /\ is_matrix N /\ transposed M N.
Proof.
  intros HM Hn Hc. unfold ReverseMatrix.
  rewrite (rows_coeffs M (fun id out '(j, v) => vput out j id v)).
  destruct (vputs_agree (coeffs M) (fun '(i, j, v) => j) (fun '(i, j, v) => i) (fun '(i, j, v) => v) (replicate (Z.to_nat n) [])) as (N & E & L & HN & HT).
  - intros [[i j] v] He. unfold zlen. rewrite replicate_length. apply Hc in He. lia.
  - intros [[i j] v] [[i' j'] v'] He He' -> ->. by eapply coeffs_fun.
  - apply replicate_nil.
  - exists N. split; [|split; [|split; [done|]]].
    + rewrite <- E. apply foldM_ext. by intros ? [[? ?] ?].
    + rewrite L. unfold zlen. rewrite replicate_length. lia.
    + intros i j v. rewrite HT. split; [intros ([[? ?] ?] & ? & <- & <- & <-); done|]. intros He. by exists (i, j, v).
Qed.

(** ** The crude matrix *)
Lemma set_ok s t M : zlen M = ft_expected t -> columns_below (ft_expected s) M ->
  setCrudeMatrix s t M = (Ok tt, RM (Some s) (Some t) M (replicate (length M) []) (replicate (Z.to_nat (ft_expected s)) [])).
Proof.
  intros Hl Hc. unfold setCrudeMatrix. replace (zlen M =? ft_expected t) with true by lia. cbn [negb].
  match goal with |- context [if existsb ?f M then _ else _] => destruct (existsb f M) eqn:E end; [|done]. exfalso.
  apply existsb_exists in E as (r & Hr & E). apply existsb_exists in E as ([j v] & Hj & E). apply elem_of_list_In in Hr, Hj. apply elem_of_zlook in Hr as [i Hr].
  assert (0 <= j < ft_expected s) by (eapply Hc, elem_of_coeffs; eauto). lia.
Qed.
Lemma set_throw s t M : zlen M <> ft_expected t \/ ~ columns_below (ft_expected s) M -> setCrudeMatrix s t M = (Throw, RM (Some s) (Some t) [] [] []).
Proof.
  intros H. unfold setCrudeMatrix. destruct (zlen M =? ft_expected t) eqn:E1; cbn [negb]; [|done].
  match goal with |- context [if existsb ?f M then _ else _] => destruct (existsb f M) eqn:E end; [done|]. exfalso. destruct H as [H|H]; [lia|]. apply H.
  intros i j v (r & Hr & Hin)%elem_of_coeffs. destruct ((j <? 0) || (ft_expected s <=? j)) eqn:E3; [|lia]. exfalso.
  rewrite <- Bool.not_true_iff_false in E. apply E. apply existsb_exists.
  exists r. split; [by apply elem_of_list_In, zlook_elem with i|]. apply existsb_exists. exists (j, v). split; [by apply elem_of_list_In|done].
Qed.
Lemma small_spec eps v : small eps v = false <-> (eps < Qcabs v)%Qc.
Proof. unfold small. destruct (bool_decide (eps < Qcabs v)%Qc) eqn:E; cbn; [apply bool_decide_eq_true in E|apply bool_decide_eq_false in E]; by split. Qed.
Local Notation dropped := tiny (only parsing).
Lemma count_row eps (i : Z) (r : row) n : fold_left (fun n '(_, v) => if small eps v then n + 1 else n) r n =
  n + zlen (List.filter (fun '(_, _, v) => small eps v) (map (fun '(j, v) => (i, j, v)) r)).
Proof.
  revert n. induction r as [|[j v] r IH]; intros n; cbn [fold_left map List.filter]; [change (zlen []) with 0; lia|]. rewrite IH. destruct (small eps v); [rewrite zlen_cons|]; lia.
Qed.
Lemma count_all eps M : fold_left (fun n row => fold_left (fun n '(_, v) => if small eps v then n + 1 else n) row n) M 0 = zlen (dropped eps M).
Proof.
  unfold tiny. change (fun '(_, _, v) => negb (bool_decide (eps < Qcabs v)%Qc)) with (fun '((_, _, v) : Z * Z * Qc) => small eps v). rewrite coeffs_irows.
  assert (H : forall k n, fold_left (fun n row => fold_left (fun n '(_, v) => if small eps v then n + 1 else n) row n) M n = n + zlen (List.filter (fun '(_, _, v) => small eps v) (expand (irows k M)))).
  { induction M as [|r M IH]; intros k n; [symmetry; apply Z.add_0_r|]. cbn [fold_left]. rewrite irows_cons. unfold expand. cbn [map concat]. fold (expand (irows (S k) M)).
    rewrite List.filter_app, zlen_app. rewrite (IH (S k)), (count_row eps (Z.of_nat k)). lia. }
  apply (H 0%nat 0).
Qed.
Lemma nullify_ok r eps : is_matrix (rm_mat r) -> exists r', nullifiedTinyCoeffInCrudeMatrixAbs r eps = (zlen (dropped eps (rm_mat r)), r') /\
  rm_src r' = rm_src r /\ rm_trg r' = rm_trg r /\ zlen (rm_mat r') = zlen (rm_mat r) /\ is_matrix (rm_mat r') /\
  (forall i j v, (i, j, v) ∈ coeffs (rm_mat r') <-> (i, j, v) ∈ coeffs (rm_mat r) /\ eps < Qcabs v)%Qc.
Proof.
  intros HM. unfold nullifiedTinyCoeffInCrudeMatrixAbs. rewrite count_all, nullify_mat by done. destruct (0 <? zlen (dropped eps (rm_mat r))) eqn:E.
  - eexists. split; [done|]. split; [done|]. split; [done|]. cbn [rm_mat]. split; [unfold zlen; by rewrite map_length|]. split.
    + unfold is_matrix in *. apply Forall_forall. intros q (q' & -> & Hq)%elem_of_list_fmap. rewrite Forall_forall in HM. by apply kept_row_map, HM.
    + intros i j v. rewrite !elem_of_coeffs, <- small_spec. setoid_rewrite zlook_map_kept. split.
      * intros (q & Hq & Hin). destruct (rm_mat r @ i) as [q0|] eqn:Eq; [|done]. cbn in Hq. injection Hq as <-. apply kept_row_elem in Hin as [Hin Hs]. eauto.
      * intros [(q & Hq & Hin) Hs]. rewrite Hq. exists (kept_row eps q). split; [done|]. by apply kept_row_elem.
  - exists r. split; [done|]. split; [done|]. split; [done|]. split; [done|]. split; [done|]. intros i j v. split; [|by intros []].
    intros He. split; [done|]. apply small_spec. destruct (small eps v) eqn:Es; [|done]. exfalso.
    assert (Hin : (i, j, v) ∈ dropped eps (rm_mat r)). { unfold tiny. rewrite elem_of_list_In, filter_In, <- elem_of_list_In. done. }
    destruct (dropped eps (rm_mat r)); [by apply elem_of_nil in Hin|]. rewrite zlen_cons in E. pose proof (zlen_nonneg l). lia.
Qed.
(** The largest absolute value. *)
Definition maxStep (m v : Qc) : Qc := if bool_decide (m < Qcabs v)%Qc then Qcabs v else m.
Lemma max_flat (M : matrix) m : fold_left (fun m row => fold_left (fun m '(_, v) => if bool_decide (m < Qcabs v)%Qc then Qcabs v else m) row m) M m =
  fold_left (fun m e => maxStep m e.2) (coeffs M) m.
Proof.
  rewrite coeffs_irows. generalize 0%nat as k. revert m. induction M as [|r M IH]; intros m k; [done|]. cbn [fold_left]. rewrite irows_cons. unfold expand. cbn [map concat]. fold (expand (irows (S k) M)).
  rewrite fold_left_app. rewrite <- IH. f_equal. clear. revert m. induction r as [|[j v] r IH]; intros m; [done|]. cbn [fold_left map]. apply IH.
Qed.
Lemma max_flat_ok (L : list (Z * Z * Qc)) m : let x := fold_left (fun m e => maxStep m e.2) L m in
  (m <= x)%Qc /\ (forall i j v, (i, j, v) ∈ L -> Qcabs v <= x)%Qc /\ (x = m \/ exists i j v, (i, j, v) ∈ L /\ x = Qcabs v).
Proof.
  revert m. induction L as [|[[i j] v] L IH]; intros m; cbn [fold_left].
  - split; [apply Qcle_refl|]. split; [by intros ? ? ? ?%elem_of_nil|by left].
  - destruct (IH (maxStep m v)) as (H1 & H2 & H3). set (x := fold_left _ L _) in *.
    assert (Hm : (m <= maxStep m v)%Qc /\ (Qcabs v <= maxStep m v)%Qc /\ (maxStep m v = m \/ maxStep m v = Qcabs v)).
    { unfold maxStep. case_bool_decide as Hb.
      - split; [by apply Qclt_le_weak|]. split; [apply Qcle_refl|by right].
      - split; [apply Qcle_refl|]. split; [by apply Qcnot_lt_le|by left]. }
    destruct Hm as (M1 & M2 & M3). split; [by eapply Qcle_trans|]. split.
    + intros i' j' v' [E|Hin]%elem_of_cons; [injection E as -> -> ->; by eapply Qcle_trans|by eapply H2].
    + destruct H3 as [H3|(i' & j' & v' & Hin & H3)].
      * rewrite H3. destruct M3 as [M3|M3]; [by left|]. right. exists i, j, v. split; [apply elem_of_list_here|done].
      * right. exists i', j', v'. split; [by apply elem_of_list_further|done].
Qed.
Lemma getMax_ok r : let x := getMaxValueInCrudeMatrix r in
  (forall i j v, (i, j, v) ∈ coeffs (rm_mat r) -> Qcabs v <= x)%Qc /\ ((x = 0%Qc /\ coeffs (rm_mat r) = []) \/ exists i j v, (i, j, v) ∈ coeffs (rm_mat r) /\ x = Qcabs v).
Proof.
  unfold getMaxValueInCrudeMatrix. rewrite max_flat. destruct (max_flat_ok (coeffs (rm_mat r)) 0%Qc) as (H1 & H2 & H3). cbv zeta in *. split; [done|].
  destruct H3 as [H3|H3]; [|by right]. destruct (coeffs (rm_mat r)) as [|[[i j] v] L] eqn:E; [by left|]. right. exists i, j, v. split; [apply elem_of_list_here|].
  rewrite H3. apply Qcle_antisym; [apply Qcabs_nonneg|]. rewrite <- H3. apply (H2 i j v), elem_of_list_here.
Qed.

(** ** Convolution *)
Definition pairs (m1 m2 : matrix) : list ((Z * Z * Qc) * (Z * Z * Qc)) := concat (map (fun e2 => map (fun e1 => (e1, e2)) (coeffs m1)) (coeffs m2)).
Lemma elem_of_pairs m1 m2 e1 e2 : (e1, e2) ∈ pairs m1 m2 <-> e1 ∈ coeffs m1 /\ e2 ∈ coeffs m2.
Proof.
  unfold pairs. induction (coeffs m2) as [|e L IH]; cbn [map concat].
  - split; [by intros ?%elem_of_nil|]. by intros [_ ?%elem_of_nil].
  - rewrite elem_of_app, IH, elem_of_cons. split.
    + intros [(e' & E & H)%elem_of_list_fmap|[H1 H2]]; [injection E as -> ->; by eauto|eauto].
    + intros [H1 [->|H2]]; [left|by right]. apply elem_of_list_fmap. by exists e1.
Qed.
Lemma foldM_pairs {St} (g : St -> Z * Z * Qc -> Z * Z * Qc -> res St) m1 m2 s :
  foldM (fun s e2 => foldM (fun s e1 => g s e1 e2) (coeffs m1) s) (coeffs m2) s = foldM (fun s '(e1, e2) => g s e1 e2) (pairs m1 m2) s.
Proof.
  unfold pairs. revert s. induction (coeffs m2) as [|e L IH]; intros s; [done|]. cbn [map concat foldM]. rewrite foldM_app.
  assert (E : foldM (fun s e1 => g s e1 e) (coeffs m1) s = foldM (fun s '(e1, e2) => g s e1 e2) (map (fun e1 => (e1, e)) (coeffs m1)) s).
  { clear. revert s. induction (coeffs m1) as [|e1 L IH]; intros s; [done|]. cbn [map foldM]. destruct (g s e1 e); cbn [bind]; [apply IH|done..]. }
  rewrite <- E. destruct (foldM _ (coeffs m1) s); cbn [bind]; [apply IH|done..].
Qed.
Lemma bijection_step a b n i1 i2 j1 j2 : 0 <= a < n -> 0 <= b < n -> i1 * n + a = i2 * n + b -> j1 = i1 -> j2 = i2 -> i1 = i2 /\ a = b.
Proof. intros. assert (i1 = i2) by nia. nia. Qed.
Lemma convolution_ok m1 m2 corrSrc n1S n2S corrTrg :
  is_matrix m1 -> is_matrix m2 -> columns_below n1S m1 -> columns_below n2S m2 ->
  zlen corrSrc = n1S * n2S -> zlen corrTrg = zlen m1 * zlen m2 ->
  NoDup corrSrc -> NoDup corrTrg -> (forall x, x ∈ corrTrg -> 0 <= x < zlen m1 * zlen m2) ->
  exists M, convolution m1 m2 corrSrc n2S corrTrg = Ok M /\ zlen M = zlen m1 * zlen m2 /\ is_matrix M /\
    forall t s v, (t, s, v) ∈ coeffs M <-> exists i1 j1 v1 i2 j2 v2, (i1, j1, v1) ∈ coeffs m1 /\ (i2, j2, v2) ∈ coeffs m2 /\
      corrTrg @ (i1 * zlen m2 + i2) = Some t /\ corrSrc @ (j1 * n2S + j2) = Some s /\ v = (v1 * v2)%Qc.
Proof.
  intros H1 H2 C1 C2 LS LT NS NT HT. unfold convolution.
  pose (ct := fun p => default 0 (corrTrg @ p)). pose (cs := fun p => default 0 (corrSrc @ p)).
  assert (BT : forall i1 j1 v1 i2 j2 v2, (i1, j1, v1) ∈ coeffs m1 -> (i2, j2, v2) ∈ coeffs m2 -> corrTrg @ (i1 * zlen m2 + i2) = Some (ct (i1 * zlen m2 + i2)) /\ corrSrc @ (j1 * n2S + j2) = Some (cs (j1 * n2S + j2))).
  { intros i1 j1 v1 i2 j2 v2 E1 E2. pose proof (rows_in _ _ _ _ E1). pose proof (rows_in _ _ _ _ E2). apply C1 in E1. apply C2 in E2.
    destruct (zlook_lt corrTrg (i1 * zlen m2 + i2)) as [x Hx]; [nia|]. destruct (zlook_lt corrSrc (j1 * n2S + j2)) as [y Hy]; [nia|]. unfold ct, cs. rewrite Hx, Hy. done. }
  rewrite (rows_coeffs m2 (fun id2R M '(j2, v2) => rows m1 (fun id1R r1 M => foldM (fun M '(j1, v1) =>
      let* t := rd corrTrg (id1R * zlen m2 + id2R) in
      let* s := rd corrSrc (j1 * n2S + j2) in
      vput M t s (v1 * v2)%Qc) r1 M) M)).
  rewrite (foldM_ext_in _ (fun M e2 => foldM (fun M e1 => vput M (ct (e1.1.1 * zlen m2 + e2.1.1)) (cs (e1.1.2 * n2S + e2.1.2)) (e1.2 * e2.2)%Qc) (coeffs m1) M)).
  2: { intros s [[i2 j2] v2] He2. rewrite (rows_coeffs m1 (fun id1R M '(j1, v1) =>
      let* t := rd corrTrg (id1R * zlen m2 + i2) in
      let* s := rd corrSrc (j1 * n2S + j2) in
      vput M t s (v1 * v2)%Qc)). apply foldM_ext_in. intros s' [[i1 j1] v1] He1. destruct (BT _ _ _ _ _ _ He1 He2) as [B1 B2].
      rewrite (rd_ok _ _ _ B1). cbn [bind]. rewrite (rd_ok _ _ _ B2). done. }
  rewrite (foldM_pairs (fun M e1 e2 => vput M (ct (e1.1.1 * zlen m2 + e2.1.1)) (cs (e1.1.2 * n2S + e2.1.2)) (e1.2 * e2.2)%Qc)).
  destruct (vputs_agree (pairs m1 m2) (fun '(e1, e2) => ct (e1.1.1 * zlen m2 + e2.1.1)) (fun '(e1, e2) => cs (e1.1.2 * n2S + e2.1.2)) (fun '(e1, e2) => e1.2 * e2.2)%Qc
    (replicate (Z.to_nat (zlen m2 * zlen m1)) [])) as (N & E & L & HN & HX).
  - intros [[[i1 j1] v1] [[i2 j2] v2]] [He1 He2]%elem_of_pairs. cbn. destruct (BT _ _ _ _ _ _ He1 He2) as [B1 _]. apply zlook_elem, HT in B1. unfold zlen in *. rewrite replicate_length. nia.
  - intros [[[i1 j1] v1] [[i2 j2] v2]] [[[i1' j1'] v1'] [[i2' j2'] v2']] [He1 He2]%elem_of_pairs [He1' He2']%elem_of_pairs. cbn. intros Et Es.
    destruct (BT _ _ _ _ _ _ He1 He2) as [B1 B2]. destruct (BT _ _ _ _ _ _ He1' He2') as [B1' B2']. rewrite Et in B1. rewrite Es in B2.
    rewrite NoDup_zlook in NT, NS. assert (P1 := NT _ _ _ B1 B1'). assert (P2 := NS _ _ _ B2 B2').
    pose proof (rows_in _ _ _ _ He1). pose proof (rows_in _ _ _ _ He2). pose proof (rows_in _ _ _ _ He1'). pose proof (rows_in _ _ _ _ He2').
    pose proof (C1 _ _ _ He1). pose proof (C2 _ _ _ He2). pose proof (C1 _ _ _ He1'). pose proof (C2 _ _ _ He2').
    assert (i1 = i1') as <- by nia. assert (i2 = i2') as <- by nia. assert (j1 = j1') as <- by nia. assert (j2 = j2') as <- by nia.
    rewrite (coeffs_fun _ _ _ _ _ H1 He1 He1'), (coeffs_fun _ _ _ _ _ H2 He2 He2'). done.
  - apply replicate_nil.
  - exists N. split; [|split; [|split; [done|]]].
    + rewrite <- E. apply foldM_ext. by intros ? [? ?].
    + rewrite L. unfold zlen. rewrite replicate_length. pose proof (zlen_nonneg m1). pose proof (zlen_nonneg m2). unfold zlen in *. nia.
    + intros t s v. rewrite HX. split.
      * intros ([[[i1 j1] v1] [[i2 j2] v2]] & [He1 He2]%elem_of_pairs & <- & <- & <-). destruct (BT _ _ _ _ _ _ He1 He2) as [B1 B2]. cbn. exists i1, j1, v1, i2, j2, v2. done.
      * intros (i1 & j1 & v1 & i2 & j2 & v2 & He1 & He2 & Ht & Hs & ->). exists ((i1, j1, v1), (i2, j2, v2)). split; [by apply elem_of_pairs|]. cbn.
        destruct (BT _ _ _ _ _ _ He1 He2) as [B1 B2]. split; [|split; [|done]]; congruence.
Qed.

(** ** Statements on reachable remappers *)
Lemma transfer_gen r src trg isDft dft : reachable_clean r -> ready r src trg -> valued src -> receives trg src -> (isDft = false -> fl_arr trg <> None) -> defined (rm_mat r) src trg ->
  exists r' trg', transferUnderground r src trg isDft dft = (Ok tt, (r', trg')) /\ kept r r' /\ same_support trg' trg /\ components trg' = components src /\
    (forall i c, 0 <= i < fl_expected trg -> 0 <= c < default 0 (components src) ->
      (row_reached (rm_mat r) i -> value trg' i c = Some (interpolated (rm_mat r) src trg i c)) /\
      (~ row_reached (rm_mat r) i -> value trg' i c = if isDft then Some dft else value trg i c)).
Proof.
  intros (ops & HW & HC & HR) Hr Hv Ht Hp Hd. destruct (run_aligned ops r HW HC HR) as [HB HA].
  destruct (underground_ok r src trg isDft dft HB HA Hr Hv Ht Hp Hd) as (r' & trg' & E & K & S1 & C & V & _). by exists r', trg'.
Qed.
Lemma transfer_all r src trg dft : reachable_clean r -> ready r src trg -> valued src -> receives trg src -> defined (rm_mat r) src trg ->
  exists r' trg', transfer r src trg dft = (Ok tt, (r', trg')) /\ kept r r' /\ same_support trg' trg /\ components trg' = components src /\
    (forall i c, 0 <= i < fl_expected trg -> 0 <= c < default 0 (components src) ->
      (row_reached (rm_mat r) i -> value trg' i c = Some (interpolated (rm_mat r) src trg i c)) /\
      (~ row_reached (rm_mat r) i -> value trg' i c = Some dft)).
Proof. intros. by apply (transfer_gen r src trg true dft). Qed.
Lemma partial_all r src trg : reachable_clean r -> ready r src trg -> valued src -> receives trg src -> fl_arr trg <> None -> defined (rm_mat r) src trg ->
  exists r' trg', partialTransfer r src trg = (Ok tt, (r', trg')) /\ kept r r' /\ same_support trg' trg /\ components trg' = components src /\
    (forall i c, 0 <= i < fl_expected trg -> 0 <= c < default 0 (components src) ->
      (row_reached (rm_mat r) i -> value trg' i c = Some (interpolated (rm_mat r) src trg i c)) /\
      (~ row_reached (rm_mat r) i -> value trg' i c = value trg i c)).
Proof. intros. by apply (transfer_gen r src trg false 0%Qc). Qed.
Lemma reverse_all r src trg dft : reachable r -> ready r src trg -> valued trg -> receives src trg -> rdefined (rm_mat r) src trg ->
  exists r' src', reverseTransfer r src trg dft = (Ok tt, (r', src')) /\ kept r r' /\ same_support src' src /\ components src' = components trg /\
    (forall j c, 0 <= j < fl_expected src -> 0 <= c < default 0 (components trg) ->
      (col_reached (rm_mat r) j -> value src' j c = Some (rinterpolated (rm_mat r) src trg j c)) /\
      (~ col_reached (rm_mat r) j -> value src' j c = Some dft)).
Proof. intros (ops & HW & HR). intros. apply reverse_ok; try done. by eapply run_base. Qed.
Lemma reachable_matrix r : reachable r -> is_matrix (rm_mat r) /\ columns_below (zlen (rm_denoR r)) (rm_mat r).
Proof. intros (ops & HW & HR). destruct (run_base ops r HW HR) as (? & _ & _ & ?). done. Qed.
Lemma clean_reachable r : reachable_clean r -> reachable r.
Proof. intros (ops & HW & _ & HR). by exists ops. Qed.
Lemma components_gt f : valued f -> exists nc, components f = Some nc /\ 0 < nc.
Proof. intros (nc & l & E & H & _). exists nc. unfold components. by rewrite E. Qed.
Lemma row_reached_dec M i : row_reached M i \/ ~ row_reached M i.
Proof.
  destruct (decide (Exists (fun e : Z * Z * Qc => e.1.1 = i) (coeffs M))) as [H|H]; [left|right].
  - apply Exists_exists in H as ([[i' j] v] & He & E). cbn in E. subst. by exists j, v.
  - intros (j & v & He). apply H, Exists_exists. by exists (i, j, v).
Qed.
Lemma transfer_zero r src trg : reachable_clean r -> ready r src trg -> valued src -> receives trg src -> defined (rm_mat r) src trg ->
  exists r' trg', transfer r src trg 0%Qc = (Ok tt, (r', trg')) /\
    forall i c, 0 <= i < fl_expected trg -> 0 <= c < default 0 (components src) -> val trg' i c = interpolated (rm_mat r) src trg i c.
Proof.
  intros H1 H2 H3 H4 H5. destruct (transfer_all r src trg 0%Qc H1 H2 H3 H4 H5) as (r' & trg' & E & _ & _ & _ & V). exists r', trg'. split; [done|].
  intros i c Hi Hc. destruct (V i c Hi Hc) as [V1 V2]. unfold val. destruct (row_reached_dec (rm_mat r) i) as [Hr|Hr].
  - by rewrite V1.
  - rewrite V2, unreached_zero by done. done.
Qed.
Lemma sum_all r src trg c : reachable_clean r -> ready r src trg -> valued src -> receives trg src -> defined (rm_mat r) src trg ->
  fl_nature src = ExtensiveConservation -> (forall j, 0 <= j < fl_expected src -> col_reached (rm_mat r) j) -> 0 <= c < default 0 (components src) ->
  exists r' trg', transfer r src trg 0%Qc = (Ok tt, (r', trg')) /\ sumZ (fl_expected trg) (fun i => val trg' i c) = sumZ (fl_expected src) (fun j => val src j c).
Proof.
  intros H1 H2 H3 H4 H5 En Hr Hc. destruct (transfer_zero r src trg H1 H2 H3 H4 H5) as (r' & trg' & E & V). exists r', trg'. split; [done|].
  pose proof H2 as (_ & (C1 & C2) & _). destruct (reachable_matrix r (clean_reachable r H1)) as [_ Hcol].
  rewrite <- (sum_conserved (rm_mat r) src trg (fl_expected src) c); [|by rewrite <- C2|done..]. rewrite C1. apply sumZ_ext. intros. by apply V.
Qed.
Lemma integral_all r src trg c : reachable_clean r -> ready r src trg -> valued src -> receives trg src -> defined (rm_mat r) src trg ->
  fl_nature src = IntensiveConservation -> 0 <= c < default 0 (components src) ->
  exists r' trg', transfer r src trg 0%Qc = (Ok tt, (r', trg')) /\
    sumZ (fl_expected trg) (fun i => measure trg src i * val trg' i c)%Qc = sumZ (fl_expected src) (fun j => col_sum (rm_mat r) j * val src j c)%Qc.
Proof.
  intros H1 H2 H3 H4 H5 En Hc. destruct (transfer_zero r src trg H1 H2 H3 H4 H5) as (r' & trg' & E & V). exists r', trg'. split; [done|].
  pose proof H2 as (_ & (C1 & C2) & _). destruct (reachable_matrix r (clean_reachable r H1)) as [_ Hcol].
  rewrite <- (integral_conserved (rm_mat r) src trg (fl_expected src) c); [|by rewrite <- C2|done..]. rewrite C1. apply sumZ_ext. intros. by rewrite V.
Qed.
Lemma density_all r src trg dft c k : reachable_clean r -> ready r src trg -> valued src -> receives trg src -> defined (rm_mat r) src trg ->
  fl_nature src = ExtensiveMaximum -> 0 <= c < default 0 (components src) -> (forall j, 0 <= j < fl_expected src -> val src j c = k * measure src trg j)%Qc ->
  exists r' trg', transfer r src trg dft = (Ok tt, (r', trg')) /\
    forall i, 0 <= i < fl_expected trg -> row_reached (rm_mat r) i -> value trg' i c = Some (k * row_sum (rm_mat r) i)%Qc.
Proof.
  intros H1 H2 H3 H4 H5 En Hc Hk. destruct (transfer_all r src trg dft H1 H2 H3 H4 H5) as (r' & trg' & E & _ & _ & _ & V). exists r', trg'. split; [done|].
  pose proof H2 as (_ & (C1 & C2) & _). destruct (reachable_matrix r (clean_reachable r H1)) as [_ Hcol].
  intros i Hi Hr. destruct (V i c Hi Hc) as [-> _]; [|done]. f_equal. apply density_kept; [done..|]. intros j (i' & v & He). apply Hk. rewrite <- C2. by eapply Hcol.
Qed.
Lemma between_all r src trg dft c : reachable_clean r -> ready r src trg -> valued src -> receives trg src ->
  fl_nature src = IntensiveMaximum -> (forall i j v, (i, j, v) ∈ coeffs (rm_mat r) -> 0 < v)%Qc -> 0 <= c < default 0 (components src) ->
  exists r' trg', transfer r src trg dft = (Ok tt, (r', trg')) /\
    forall i, 0 <= i < fl_expected trg -> row_reached (rm_mat r) i -> exists x, value trg' i c = Some x /\
      forall lo hi, (forall j v, (i, j, v) ∈ coeffs (rm_mat r) -> lo <= val src j c <= hi)%Qc -> (lo <= x <= hi)%Qc.
Proof.
  intros H1 H2 H3 H4 En Hp Hc. assert (H5 : defined (rm_mat r) src trg) by (by apply positive_defined).
  destruct (transfer_all r src trg dft H1 H2 H3 H4 H5) as (r' & trg' & E & _ & _ & _ & V). exists r', trg'. split; [done|].
  intros i Hi Hr. destruct (V i c Hi Hc) as [-> _]; [|done]. eexists. split; [done|]. intros lo hi Hb. by apply between.
Qed.
Lemma constant_all r src trg dft c k : reachable_clean r -> ready r src trg -> valued src -> receives trg src -> defined (rm_mat r) src trg ->
  fl_nature src = IntensiveMaximum -> 0 <= c < default 0 (components src) -> (forall j, 0 <= j < fl_expected src -> val src j c = k) ->
  exists r' trg', transfer r src trg dft = (Ok tt, (r', trg')) /\
    forall i, 0 <= i < fl_expected trg -> row_reached (rm_mat r) i -> value trg' i c = Some k.
Proof.
  intros H1 H2 H3 H4 H5 En Hc Hk. destruct (transfer_all r src trg dft H1 H2 H3 H4 H5) as (r' & trg' & E & _ & _ & _ & V). exists r', trg'. split; [done|].
  pose proof H2 as (_ & (C1 & C2) & _). destruct (reachable_matrix r (clean_reachable r H1)) as [_ Hcol].
  intros i Hi Hr. destruct (V i c Hi Hc) as [-> _]; [|done]. f_equal. apply constant_kept; [done..|]. intros j (i' & v & He). apply Hk. rewrite <- C2. by eapply Hcol.
Qed.
(** Refusals. *)
Lemma refused r src trg isDft dft :
  fl_arr src = None \/ rm_src r = None \/ rm_trg r = None \/ fl_nature src <> fl_nature trg \/
  (exists s, rm_src r = Some s /\ (ft_disc s <> fl_disc src \/ ft_expected s <> fl_expected src)) \/ (exists t, rm_trg r = Some t /\ ft_disc t <> fl_disc trg) \/
  (isDft = false /\ fl_arr trg = None) \/ (fl_arr trg <> None /\ components trg <> components src) ->
  transferUnderground r src trg isDft dft = (Throw, (r, trg)).
Proof.
  intros H. unfold transferUnderground. destruct (fl_arr src) as [[nc l]|] eqn:Es; [|done]. destruct (rm_src r) as [s|]; [|done]. destruct (rm_trg r) as [t|]; [|done].
  unfold check. destruct (negb (consistent src)); [done|]. destruct (ft_disc s =? fl_disc src) eqn:E1; [|done]. destruct (ft_disc t =? fl_disc trg) eqn:E2; [|done]. cbn [negb].
  destruct (bool_decide (fl_nature src <> fl_nature trg)) eqn:E3; [done|]. destruct (fl_expected src =? ft_expected s) eqn:E4; [|done]. cbn [negb].
  apply bool_decide_eq_false in E3.
  destruct H as [H|[H|[H|[H|[(s' & [= <-] & [H|H])|[(t' & [= <-] & H)|[[-> ->]|[H Hc]]]]]]]]; try done; try lia.
  unfold components in Hc. rewrite Es in Hc. destruct (fl_arr trg) as [[nc' out]|]; [|done]. destruct (negb (consistent trg)); [done|]. cbn in Hc. by replace (nc =? nc') with false by (symmetry; apply Z.eqb_neq; congruence).
Qed.
Lemma rrefused r src trg dft :
  fl_arr trg = None \/ rm_src r = None \/ rm_trg r = None \/ fl_nature src <> fl_nature trg \/
  (exists t, rm_trg r = Some t /\ (ft_disc t <> fl_disc trg \/ ft_expected t <> fl_expected trg)) \/ (exists s, rm_src r = Some s /\ ft_disc s <> fl_disc src) \/
  (fl_arr src <> None /\ components src <> components trg) ->
  reverseTransfer r src trg dft = (Throw, (r, src)).
Proof.
  intros H. unfold reverseTransfer. destruct (fl_arr trg) as [[nc l]|] eqn:Et; [|done]. destruct (rm_src r) as [s|]; [|done]. destruct (rm_trg r) as [t|]; [|done].
  unfold check. destruct (negb (consistent trg)); [done|]. destruct (ft_disc s =? fl_disc src) eqn:E1; [|done]. destruct (ft_disc t =? fl_disc trg) eqn:E2; [|done]. cbn [negb].
  destruct (bool_decide (fl_nature src <> fl_nature trg)) eqn:E3; [done|]. destruct (fl_expected trg =? ft_expected t) eqn:E4; [|done]. cbn [negb].
  apply bool_decide_eq_false in E3.
  destruct H as [H|[H|[H|[H|[(s' & [= <-] & [H|H])|[(t' & [= <-] & H)|[H Hc]]]]]]]; try done; try lia.
  unfold components in Hc. rewrite Et in Hc. destruct (fl_arr src) as [[nc' out]|]; [|done]. destruct (negb (consistent src)); [done|]. cbn in Hc. by replace (nc =? nc') with false by (symmetry; apply Z.eqb_neq; congruence).
Qed.
(** Transposition. *)
Lemma transposed_col M N j : transposed M N -> row_reached N j <-> col_reached M j.
Proof. intros H. unfold row_reached, col_reached. split; intros (i & v & He); exists i, v; by apply H. Qed.
Lemma rdivisor_transposed M N src trg i j : is_matrix M -> is_matrix N -> transposed M N -> fl_nature src = fl_nature trg -> divisor N trg src j i = rdivisor M src trg i j.
Proof.
  intros HM HN HT En. unfold divisor, rdivisor. destruct (fl_nature trg); try done.
  - unfold row_sum, col_sum. by rewrite (transposed_total M N _ HM HN HT).
  - unfold row_sum, col_sum. by rewrite (transposed_total M N _ HM HN HT).
Qed.
Lemma rinterpolated_transposed M N src trg j c : is_matrix M -> is_matrix N -> transposed M N -> fl_nature src = fl_nature trg ->
  interpolated N trg src j c = rinterpolated M src trg j c.
Proof.
  intros HM HN HT En. unfold interpolated, rinterpolated. rewrite (transposed_total M N _ HM HN HT). apply total_ext. intros i j' v He.
  destruct (j' =? j); [|done]. by rewrite (rdivisor_transposed M N src trg).
Qed.
Lemma reverse_transposed r r2 src trg dft : reachable r -> reachable_clean r2 -> ready r src trg -> ready r2 trg src -> transposed (rm_mat r) (rm_mat r2) ->
  valued trg -> receives src trg -> rdefined (rm_mat r) src trg ->
  exists r' r2' src1 src2, reverseTransfer r src trg dft = (Ok tt, (r', src1)) /\ transfer r2 trg src dft = (Ok tt, (r2', src2)) /\
    components src1 = components src2 /\
    forall j c, 0 <= j < fl_expected src -> 0 <= c < default 0 (components trg) -> value src1 j c = value src2 j c.
Proof.
  intros H1 H2 R1 R2 HT Hv Hs Hd. destruct (reachable_matrix r H1) as [HM _]. destruct (reachable_matrix r2 (clean_reachable r2 H2)) as [HN _].
  assert (En : fl_nature src = fl_nature trg) by apply R1.
  assert (Hd2 : defined (rm_mat r2) trg src).
  { intros j i v He. apply HT in He. rewrite (rdivisor_transposed (rm_mat r)) by done. by eapply Hd. }
  destruct (reverse_all r src trg dft H1 R1 Hv Hs Hd) as (r' & src1 & E1 & _ & _ & C1 & V1).
  destruct (transfer_all r2 trg src dft H2 R2 Hv Hs Hd2) as (r2' & src2 & E2 & _ & _ & C2 & V2).
  exists r', r2', src1, src2. split; [done|]. split; [done|]. split; [congruence|]. intros j c Hj Hc.
  destruct (V1 j c Hj Hc) as [A1 A2]. destruct (V2 j c Hj Hc) as [B1 B2]. destruct (row_reached_dec (rm_mat r2) j) as [Hr|Hr].
  - rewrite B1 by done. rewrite A1 by (by apply (transposed_col (rm_mat r) (rm_mat r2))). f_equal. symmetry. by apply rinterpolated_transposed.
  - rewrite B2 by done. rewrite A2; [done|]. intros Hx. apply Hr. by apply (transposed_col (rm_mat r) (rm_mat r2)).
Qed.
Lemma nullify_relative r scale :
  (getMaxValueInCrudeMatrix r = 0%Qc -> nullifiedTinyCoeffInCrudeMatrix r scale = (-1, r) /\ forall i j v, (i, j, v) ∈ coeffs (rm_mat r) -> v = 0%Qc) /\
  (getMaxValueInCrudeMatrix r <> 0%Qc -> nullifiedTinyCoeffInCrudeMatrix r scale = nullifiedTinyCoeffInCrudeMatrixAbs r (scale * getMaxValueInCrudeMatrix r)%Qc).
Proof.
  unfold nullifiedTinyCoeffInCrudeMatrix. destruct (Qc_eq_dec (getMaxValueInCrudeMatrix r) 0%Qc) as [E|E]; split; intros Hx; try done.
  split; [done|]. intros i j v He. destruct (getMax_ok r) as [H _]. specialize (H i j v He). rewrite E in H.
  assert (Hz : Qcabs v = 0%Qc) by (apply Qcle_antisym; [done|apply Qcabs_nonneg]). 
  apply Qcle_antisym.
  - eapply Qcle_trans; [apply Qcle_Qcabs|]. by rewrite Hz; apply Qcle_refl.
  - pose proof (Qcle_Qcabs (- v)%Qc) as Hn. rewrite Qcabs_opp, Hz in Hn. apply Qcopp_le_compat in Hn. rewrite Qcopp_involutive in Hn. done.
Qed.
