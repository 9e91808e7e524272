(** Proofs about the remapper: maps, loops on the coefficients, sums. *)
From Coq Require Import QArith Qcanon ZifyBool ZifyNat.
From Verif Require Import Base RemapModel RemapSpec.
Local Open Scope Z_scope.

(** ** Maps *)
Section maps.
  Context {V : Type}.
  Implicit Types (m : list (Z * V)) (k : Z).
  Lemma mfind_mput k k' (v : V) m : mfind k (mput k' v m) = if k =? k' then Some v else mfind k m.
  Proof.
    induction m as [|[a x] m IH]; cbn [mput mfind]; [done|].
    destruct (k' <? a) eqn:E; [done|]. destruct (k' =? a) eqn:E2; cbn [mfind].
    - destruct (k =? k') eqn:E3, (k =? a) eqn:E4; try done; lia.
    - destruct (k =? a) eqn:E4; [|done]. destruct (k =? k') eqn:E3; [lia|done].
  Qed.
  Lemma mput_keys k (v : V) m a : a ∈ (mput k v m).*1 <-> a = k \/ a ∈ m.*1.
  Proof.
    induction m as [|[b x] m IH]; cbn [mput].
    { cbn. rewrite elem_of_list_singleton. set_solver. }
    destruct (k <? b) eqn:E; [cbn; set_solver|]. destruct (k =? b) eqn:E2.
    - apply Z.eqb_eq in E2 as ->. cbn. set_solver.
    - cbn [fmap list_fmap]. rewrite !elem_of_cons, IH. set_solver.
  Qed.
  Lemma mput_sorted k (v : V) m : StronglySorted Z.lt m.*1 -> StronglySorted Z.lt (mput k v m).*1.
  Proof.
    induction m as [|[b x] m IH]; cbn [mput]; intros H.
    { cbn. repeat constructor. }
    cbn in H. inversion H as [|? ? H1 H2]; subst.
    destruct (k <? b) eqn:E.
    - cbn. constructor; [done|]. constructor; [cbn; lia|]. eapply Forall_impl; [exact H2|]. cbn. intros; lia.
    - destruct (k =? b) eqn:E2; [apply Z.eqb_eq in E2 as ->; cbn; done|].
      cbn. constructor; [by apply IH|]. apply Forall_forall. intros a [->|Ha]%mput_keys; [cbn; lia|].
      rewrite Forall_forall in H2. by apply H2.
  Qed.
  Lemma mfind_elem k (v : V) m : StronglySorted Z.lt m.*1 -> mfind k m = Some v <-> (k, v) ∈ m.
  Proof.
    induction m as [|[b x] m IH]; cbn; intros H; [split; [done|intros ?%elem_of_nil; done]|].
    inversion H as [|? ? H1 H2]; subst. rewrite elem_of_cons. rewrite Forall_forall in H2. destruct (k =? b) eqn:E.
    - apply Z.eqb_eq in E as ->. split; [intros [= ->]; by left|]. intros [[= ->]|Hin]; [done|].
      assert (b < b) by (apply H2, elem_of_list_fmap; by exists (b, v)). lia.
    - rewrite IH by done. split; [by right|]. intros [[= -> ->]|?]; [lia|done].
  Qed.
  Lemma mfind_keys k m : (exists v, mfind k m = Some v) <-> k ∈ m.*1.
  Proof.
    induction m as [|[b x] m IH]; cbn; [split; [by intros [? ?]|by intros ?%elem_of_nil]|].
    rewrite elem_of_cons, <- IH. destruct (k =? b) eqn:E; [apply Z.eqb_eq in E as ->; split; eauto|].
    split; [by right|]. intros [->|?]; [lia|done].
  Qed.
  Lemma mfind_none k m : mfind k m = None <-> k ∉ m.*1.
  Proof.
    rewrite <- mfind_keys. destruct (mfind k m); split; try done; intros H.
    - destruct H. eauto.
    - intros [? ?]. done.
  Qed.
  (** A map with given keys and given values. *)
  Lemma map_eq_of m (ks : list Z) (g : Z -> V) : StronglySorted Z.lt m.*1 -> StronglySorted Z.lt ks ->
    (forall k, mfind k m = if bool_decide (k ∈ ks) then Some (g k) else None) -> m = map (fun k => (k, g k)) ks.
  Proof.
    revert ks. induction m as [|[b x] m IH]; intros ks Hm Hks Hg.
    { destruct ks as [|a ks]; [done|]. specialize (Hg a). cbn in Hg. rewrite bool_decide_true in Hg by apply elem_of_list_here. done. }
    cbn in Hm. inversion Hm as [|? ? Hm1 Hm2]; subst. rewrite Forall_forall in Hm2.
    destruct ks as [|a ks].
    { specialize (Hg b). cbn in Hg. rewrite Z.eqb_refl in Hg. rewrite bool_decide_false in Hg by (by intros ?%elem_of_nil). done. }
    inversion Hks as [|? ? Hk1 Hk2]; subst. rewrite Forall_forall in Hk2.
    assert (a = b) as ->.
    { pose proof (Hg a) as Ha. pose proof (Hg b) as Hb. rewrite bool_decide_true in Ha by apply elem_of_list_here.
      cbn in Ha, Hb. rewrite Z.eqb_refl in Hb. destruct (decide (a = b)) as [|Hne]; [done|].
      case_bool_decide as Hb'; [|done]. apply elem_of_cons in Hb' as [->|Hb']; [done|]. apply Hk2 in Hb'.
      replace (a =? b) with false in Ha by lia. assert (a ∈ m.*1) as Ha' by (apply mfind_keys; eauto). apply Hm2 in Ha'. lia. }
    cbn [map]. f_equal.
    { specialize (Hg b). cbn in Hg. rewrite Z.eqb_refl in Hg. rewrite bool_decide_true in Hg by apply elem_of_list_here. congruence. }
    apply IH; [done..|]. intros k. specialize (Hg k). cbn in Hg. destruct (k =? b) eqn:E.
    - apply Z.eqb_eq in E as ->. rewrite bool_decide_false; [|intros ?%Hk2; lia]. apply mfind_none. intros ?%Hm2. lia.
    - rewrite Hg. erewrite (bool_decide_ext (k ∈ b :: ks) (k ∈ ks)); [done|]. rewrite elem_of_cons. split; [|by right]. intros [->|?]; [lia|done].
  Qed.
End maps.

(** ** Loops on the rows and on the coefficients *)
Definition irows (k : nat) (M : matrix) : list (Z * row) := imap (fun i r => (Z.of_nat (k + i), r)) M.
Lemma irows_cons k r M : irows k (r :: M) = (Z.of_nat k, r) :: irows (S k) M.
Proof. unfold irows. rewrite imap_cons. rewrite Nat.add_0_r. f_equal. apply imap_ext. intros. cbn. do 2 f_equal. lia. Qed.
Lemma irows_app k M N : irows k (M ++ N) = irows k M ++ irows (k + length M) N.
Proof. unfold irows. rewrite imap_app. f_equal. apply imap_ext. intros. cbn. do 2 f_equal. lia. Qed.
Definition expand (l : list (Z * row)) : list (Z * Z * Qc) := concat (map (fun '(i, r) => map (fun '(j, v) => (i, j, v)) r) l).
Lemma coeffs_irows M : coeffs M = expand (irows 0 M).
Proof.
  unfold coeffs, expand, irows. f_equal. change (map ?f ?l) with (f <$> l). rewrite fmap_imap. apply imap_ext. done.
Qed.
Lemma rows_foldM {St} (M : matrix) (f : Z -> row -> St -> res St) s : rows M f s = foldM (fun s '(i, r) => f i r s) (irows 0 M) s.
Proof.
  unfold rows. assert (H : forall post pre s, M = pre ++ post ->
    forZ (zlen pre) (zlen M) (fun idx s => let* r := rd M idx in f idx r s) s = foldM (fun s '(i, r) => f i r s) (irows (length pre) post) s).
  { induction post as [|r post IH]; intros pre s0 E.
    - rewrite forZ_empty; [done|]. rewrite E, app_nil_r. lia.
    - rewrite forZ_step by (rewrite E, zlen_app, zlen_cons; pose proof (zlen_nonneg post); lia).
      rewrite (rd_ok M (zlen pre) r).
      2: { rewrite E, zlook_app_r by lia. replace (zlen pre - zlen pre) with 0 by lia. done. }
      cbn [bind]. rewrite irows_cons. cbn [foldM]. replace (Z.of_nat (length pre)) with (zlen pre) by done.
      destruct (f (zlen pre) r s0); cbn [bind]; try done.
      rewrite <- (Nat.add_1_r (length pre)).
      replace (length pre + 1)%nat with (length (pre ++ [r])) by (rewrite app_length; done).
      rewrite <- IH by (rewrite <- app_assoc; done). rewrite zlen_app. done. }
  exact (H M [] s eq_refl).
Qed.
Lemma expand_foldM {St} (g : Z -> St -> Z * Qc -> res St) (l : list (Z * row)) s :
  foldM (fun s '(i, r) => foldM (g i) r s) l s = foldM (fun s '(i, j, v) => g i s (j, v)) (expand l) s.
Proof.
  revert s. induction l as [|[i r] l IH]; intros s; [done|]. unfold expand. cbn [map concat]. rewrite foldM_app. cbn [foldM].
  assert (E : foldM (g i) r s = foldM (fun s '(i, j, v) => g i s (j, v)) (map (fun '(j, v) => (i, j, v)) r) s).
  { clear. revert s. induction r as [|[j v] r IH]; intros s; [done|]. cbn [map foldM]. destruct (g i s (j, v)); cbn [bind]; [apply IH|done..]. }
  rewrite <- E. destruct (foldM (g i) r s); cbn [bind]; [apply IH|done..].
Qed.
Lemma rows_coeffs {St} (M : matrix) (g : Z -> St -> Z * Qc -> res St) s :
  rows M (fun i r s => foldM (g i) r s) s = foldM (fun s '(i, j, v) => g i s (j, v)) (coeffs M) s.
Proof. rewrite rows_foldM, coeffs_irows. apply expand_foldM. Qed.
Lemma elem_of_expand l i j v : (i, j, v) ∈ expand l <-> exists r, (i, r) ∈ l /\ (j, v) ∈ r.
Proof.
  unfold expand. induction l as [|[i' r'] l IH]; cbn [map concat].
  - split; [by intros ?%elem_of_nil|]. intros (? & ?%elem_of_nil & _). done.
  - rewrite elem_of_app, IH. split.
    + intros [H|(r & H1 & H2)].
      * apply elem_of_list_fmap in H as ([j' v'] & E & H). injection E as -> -> ->. exists r'. split; [apply elem_of_list_here|done].
      * exists r. split; [by apply elem_of_list_further|done].
    + intros (r & [E|H]%elem_of_cons & H2).
      * injection E as -> ->. left. apply elem_of_list_fmap. by exists (j, v).
      * right. eauto.
Qed.
Lemma elem_of_irows M i r : (i, r) ∈ irows 0 M <-> M @ i = Some r.
Proof.
  unfold irows. rewrite elem_of_lookup_imap. split.
  - intros (n & r' & E & H). injection E as -> ->. unfold zlook. cbn. replace (Z.of_nat n <? 0) with false by lia. by rewrite Nat2Z.id.
  - intros H. pose proof (zlook_Some_lt _ _ _ H) as ?. exists (Z.to_nat i), r. split; [f_equal; cbn; lia|].
    unfold zlook in H. replace (i <? 0) with false in H by lia. done.
Qed.
Lemma elem_of_coeffs M i j v : (i, j, v) ∈ coeffs M <-> exists r, M @ i = Some r /\ (j, v) ∈ r.
Proof. rewrite coeffs_irows, elem_of_expand. setoid_rewrite elem_of_irows. done. Qed.

(** ** Sums *)
Lemma sumQ_cons x l : sumQ (x :: l) = (x + sumQ l)%Qc.
Proof. done. Qed.
Lemma sumQ_app l1 l2 : sumQ (l1 ++ l2) = (sumQ l1 + sumQ l2)%Qc.
Proof. induction l1 as [|x l1 IH]; cbn [app]; [by rewrite Qcplus_0_l|]. rewrite !sumQ_cons, IH. ring. Qed.
Lemma sumQ_snoc l x : sumQ (l ++ [x]) = (sumQ l + x)%Qc.
Proof. rewrite sumQ_app, sumQ_cons. cbn [sumQ foldr]. ring. Qed.
Lemma sumQ_zero {A} (g : A -> Qc) l : (forall x, x ∈ l -> g x = 0%Qc) -> sumQ (map g l) = 0%Qc.
Proof.
  induction l as [|x l IH]; intros H; [done|]. cbn [map]. rewrite sumQ_cons, H by apply elem_of_list_here. rewrite IH; [apply Qcplus_0_l|]. intros. apply H. by apply elem_of_list_further.
Qed.
Lemma sumQ_ext {A} (g h : A -> Qc) l : (forall x, x ∈ l -> g x = h x) -> sumQ (map g l) = sumQ (map h l).
Proof.
  induction l as [|x l IH]; intros H; [done|]. cbn [map]. rewrite !sumQ_cons, H by apply elem_of_list_here. f_equal. apply IH. intros. apply H. by apply elem_of_list_further.
Qed.
Lemma sumQ_add {A} (g h : A -> Qc) l : sumQ (map (fun x => g x + h x)%Qc l) = (sumQ (map g l) + sumQ (map h l))%Qc.
Proof. induction l as [|x l IH]; cbn [map]; [done|]. rewrite !sumQ_cons, IH. ring. Qed.
Lemma sumQ_scale {A} (g : A -> Qc) k l : sumQ (map (fun x => k * g x)%Qc l) = (k * sumQ (map g l))%Qc.
Proof. induction l as [|x l IH]; cbn [map]; [cbn [sumQ foldr]; ring|]. rewrite !sumQ_cons, IH. ring. Qed.
Lemma fold_plus l x : fold_left Qcplus l x = (x + sumQ l)%Qc.
Proof. revert x. induction l as [|y l IH]; intros x; cbn [fold_left]; [by rewrite Qcplus_0_r|]. rewrite IH, sumQ_cons. ring. Qed.
Lemma accumulate_ok l : accumulate l = sumQ l.
Proof. unfold accumulate. rewrite fold_plus. apply Qcplus_0_l. Qed.
(** The sum over the coefficients of one row. *)
Lemma expand_skip l i h : i ∉ l.*1 -> sumQ (map (fun '(i', j, v) => if i' =? i then h j v else 0%Qc) (expand l)) = 0%Qc.
Proof.
  intros H. apply sumQ_zero. intros [[i' j] v] (r & H1 & _)%elem_of_expand. replace (i' =? i) with false; [done|].
  symmetry. apply Z.eqb_neq. intros ->. apply H. apply elem_of_list_fmap. by exists (i, r).
Qed.
Lemma irows_fst k M : (irows k M).*1 = map (fun n => Z.of_nat n) (seq k (length M)).
Proof.
  revert k. induction M as [|r M IH]; intros k; [done|]. rewrite irows_cons. cbn [fmap list_fmap fst length seq map]. f_equal. apply IH.
Qed.
Lemma total_row M i r (h : Z -> Qc -> Qc) : M @ i = Some r ->
  total M (fun i' j v => if i' =? i then h j v else 0%Qc) = sumQ (map (fun '(j, v) => h j v) r).
Proof.
  intros H. pose proof (zlook_Some_lt _ _ _ H) as Hi. unfold total. rewrite coeffs_irows.
  assert (E : M = take (Z.to_nat i) M ++ r :: drop (S (Z.to_nat i)) M).
  { unfold zlook in H. replace (i <? 0) with false in H by lia. symmetry. by apply take_drop_middle. }
  assert (L : length (take (Z.to_nat i) M) = Z.to_nat i) by (rewrite take_length; unfold zlen in Hi; lia).
  revert E L. generalize (take (Z.to_nat i) M) as P. generalize (drop (S (Z.to_nat i)) M) as N. intros N P -> L.
  rewrite irows_app, irows_cons. unfold expand. rewrite !map_app, concat_app, map_app, sumQ_app. cbn [map concat].
  rewrite map_app, sumQ_app. fold (expand (irows 0 P)). fold (expand (irows (S (0 + length P)) N)).
  rewrite (expand_skip (irows 0 P)), (expand_skip (irows (S (0 + length P)) N)).
  - rewrite Qcplus_0_l, Qcplus_0_r. rewrite map_map. f_equal. apply map_ext. intros [j v].
    replace (Z.of_nat (0 + length P) =? i) with true by lia. done.
  - rewrite irows_fst. intros (n & E & ?%elem_of_seq)%elem_of_list_fmap. lia.
  - rewrite irows_fst. intros (n & E & ?%elem_of_seq)%elem_of_list_fmap. lia.
Qed.
Lemma row_sum_ok M i r : M @ i = Some r -> row_sum M i = sumQ r.*2.
Proof. intros H. unfold row_sum. rewrite (total_row M i r (fun _ v => v) H). f_equal. Qed.

(** ** The writing of denominators *)
Lemma vput_ok M i k v r : M @ i = Some r -> vput M i k v = Ok (zset M i (mput k v r)).
Proof. intros H. unfold vput. rewrite (rd_ok _ _ _ H). cbn [bind]. apply wr_ok. by apply zlook_Some_lt in H. Qed.
(** [N'] is [N] where the cells of [L] received the value [D]. *)
Definition overwritten (N N' : matrix) (cell : Z -> Z -> Prop) (D : Z -> Z -> Qc) : Prop :=
  zlen N' = zlen N /\ (is_matrix N -> is_matrix N') /\
  (forall p r, N @ p = Some r -> exists r', N' @ p = Some r' /\
    forall k, (cell p k -> mfind k r' = Some (D p k)) /\ (~ cell p k -> mfind k r' = mfind k r)).
Lemma vputs_ok {A} (L : list A) (a b : A -> Z) (x : A -> Qc) D N :
  (forall e, e ∈ L -> 0 <= a e < zlen N /\ x e = D (a e) (b e)) ->
  exists N', foldM (fun N e => vput N (a e) (b e) (x e)) L N = Ok N' /\ overwritten N N' (fun p k => exists e, e ∈ L /\ a e = p /\ b e = k) D.
Proof.
  intros H. apply wp_ok. eapply (wp_foldM _ (fun pre N' => overwritten N N' (fun p k => exists e, e ∈ pre /\ a e = p /\ b e = k) D)).
  - repeat split; try done. intros p r Hp. exists r. split; [done|]. intros k. split; [|done]. intros (e & ?%elem_of_nil & _). done.
  - intros pre e post N1 E (I1 & I2 & I3). destruct (H e) as [Ha Hx]; [rewrite E; set_solver|].
    destruct (zlook_lt N (a e) Ha) as [r Hr]. destruct (I3 _ _ Hr) as (r' & Hr' & I4).
    rewrite (vput_ok _ _ _ _ _ Hr'). cbn [wp]. repeat split.
    + by rewrite zlen_zset.
    + intros HN. specialize (I2 HN). unfold is_matrix in *. unfold zset. apply Forall_insert; [done|].
      apply mput_sorted. rewrite Forall_forall in I2. apply I2. by eapply zlook_elem.
    + intros p q Hq. rewrite zlook_zset by lia. destruct (p =? a e) eqn:Ep.
      * apply Z.eqb_eq in Ep as ->. assert (q = r) as -> by congruence. eexists. split; [done|]. intros k. rewrite mfind_mput. split.
        -- intros (e' & [He'|E']%elem_of_app & E1 & E2).
           ++ destruct (k =? b e) eqn:Ek; [apply Z.eqb_eq in Ek as ->; by rewrite Hx|]. apply I4. eauto.
           ++ apply elem_of_list_singleton in E' as ->. subst k. rewrite Z.eqb_refl. by rewrite Hx.
        -- intros Hn. replace (k =? b e) with false.
           ++ apply I4. intros (e' & ? & ? & ?). apply Hn. exists e'. set_solver.
           ++ symmetry. apply Z.eqb_neq. intros ->. apply Hn. exists e. set_solver.
      * destruct (I3 _ _ Hq) as (q' & Hq' & I5). exists q'. split; [done|]. intros k. split.
        -- intros (e' & [He'|E']%elem_of_app & E1 & E2); [apply I5; eauto|]. apply elem_of_list_singleton in E' as ->. lia.
        -- intros Hn. apply I5. intros (e' & ? & ? & ?). apply Hn. exists e'. set_solver.
  - done.
Qed.
Lemma foldM_pair {A S1 S2} (f1 : S1 -> A -> res S1) (f2 : S2 -> A -> res S2) L s1 s2 t1 t2 :
  foldM f1 L s1 = Ok t1 -> foldM f2 L s2 = Ok t2 ->
  foldM (fun '(x, y) e => let* x := f1 x e in let* y := f2 y e in Ok (x, y)) L (s1, s2) = Ok (t1, t2).
Proof.
  revert s1 s2. induction L as [|e L IH]; intros s1 s2; cbn [foldM]; [by intros [= ->] [= ->]|].
  destruct (f1 s1 e), (f2 s2 e); cbn [bind]; try done. apply IH.
Qed.

Definition addvals (L : list (Z * Z * Qc)) (m : row) : row := fold_left (fun m '(_, j, v) => mplus j v m) L m.
Lemma mget_mplus k j v m : mget k (mplus j v m) = (mget k m + if j =? k then v else 0)%Qc.
Proof.
  unfold mget at 1, mplus. rewrite mfind_mput. rewrite (Z.eqb_sym j k). destruct (k =? j) eqn:E.
  - apply Z.eqb_eq in E as ->. done.
  - by rewrite Qcplus_0_r.
Qed.
Lemma addvals_ok L m k : mget k (addvals L m) = (mget k m + sumQ (map (fun '(_, j, v) => if j =? k then v else 0) L))%Qc.
Proof.
  revert m. induction L as [|[[i j] v] L IH]; intros m; cbn [map].
  - cbn. by rewrite Qcplus_0_r.
  - unfold addvals. cbn [fold_left]. fold (addvals L (mplus j v m)). rewrite IH, mget_mplus, sumQ_cons. ring.
Qed.
Lemma addvals_col M k : mget k (addvals (coeffs M) []) = col_sum M k.
Proof. rewrite addvals_ok. unfold mget. cbn [mfind]. apply Qcplus_0_l. Qed.
Lemma row_fold (i : Z) (r : row) s m :
  fold_left (fun '(sum, values) '(j, v) => ((sum + v)%Qc, mplus j v values)) r (s, m) =
  ((s + sumQ r.*2)%Qc, addvals (map (fun '(j, v) => (i, j, v)) r) m).
Proof.
  revert s m. induction r as [|[j v] r IH]; intros s m; cbn [fold_left map fmap list_fmap snd].
  - cbn. by rewrite Qcplus_0_r.
  - rewrite IH, sumQ_cons. unfold addvals at 2. cbn [fold_left]. f_equal. ring.
Qed.
Lemma addvals_app L1 L2 m : addvals (L1 ++ L2) m = addvals L2 (addvals L1 m).
Proof. apply fold_left_app. Qed.
(** The first loop of the two computations of sums: the sums by columns, and the writing of the sums by rows. *)
Lemma sums_loop {St} (M : matrix) (put : St -> Z -> Z -> Qc -> res St) s :
  rows M (fun idx r '(values, deno) =>
    let '(sum, values) := fold_left (fun '(sum, values) '(j, v) => ((sum + v)%Qc, mplus j v values)) r (0%Qc, values) in
    let* deno := foldM (fun deno '(j, _) => put deno idx j sum) r deno in
    Ok (values, deno)) ([], s) =
  let* s := foldM (fun s '(i, j, v) => put s i j (row_sum M i)) (coeffs M) s in Ok (addvals (coeffs M) [], s).
Proof.
  rewrite rows_foldM, coeffs_irows.
  assert (H : forall l m s, (forall i r, (i, r) ∈ l -> M @ i = Some r) ->
    foldM (fun s '(i, r) => let '(values, deno) := s in
      let '(sum, values) := fold_left (fun '(sum, values) '(j, v) => ((sum + v)%Qc, mplus j v values)) r (0%Qc, values) in
      let* deno := foldM (fun deno '(j, _) => put deno i j sum) r deno in Ok (values, deno)) l (m, s) =
    let* s := foldM (fun s '(i, j, v) => put s i j (row_sum M i)) (expand l) s in Ok (addvals (expand l) m, s)).
  { induction l as [|[i r] l IH]; intros m s0 Hl; [done|]. cbn [foldM]. rewrite (row_fold i). rewrite Qcplus_0_l.
    unfold expand. cbn [map concat]. fold (expand l). rewrite foldM_app, addvals_app.
    rewrite <- (row_sum_ok M i r) by (apply Hl, elem_of_list_here).
    assert (E : foldM (fun deno '(j, _) => put deno i j (row_sum M i)) r s0 =
      foldM (fun s '(i, j, v) => put s i j (row_sum M i)) (map (fun '(j, v) => (i, j, v)) r) s0).
    { clear. revert s0. induction r as [|[j v] r IH]; intros s; [done|]. cbn [map foldM]. destruct (put s i j _); cbn [bind]; [apply IH|done..]. }
    rewrite E. destruct (foldM _ (map _ r) s0); cbn [bind]; [|done..]. apply IH. intros. apply Hl. by apply elem_of_list_further. }
  apply H. intros i r. apply elem_of_irows.
Qed.

Lemma minusOne_ok (src trg : field) : mesh_ok src -> mesh_ok trg -> ~ (fl_dim src = -1 /\ fl_dim trg = -1) ->
  exists a b, minusOne (fl_dim trg) (fl_dim src) (fl_measure src) (fl_measure trg) = Ok (a, b) /\
    (forall j, 0 <= j < fl_expected src -> a @ j = Some (measure src trg j)) /\
    (forall i, 0 <= i < fl_expected trg -> b @ i = Some (measure trg src i)).
Proof.
  intros (S1 & S2 & S3) (T1 & T2 & T3) Hd. unfold minusOne, measure.
  destruct (fl_dim trg =? -1) eqn:Et, (fl_dim src =? -1) eqn:Es; try lia.
  - rewrite wr_ok by lia. cbn [bind]. eexists _, _. split; [done|]. split.
    + intros j Hj. destruct (zlook_lt (fl_measure src) j) as [x Hx]; [lia|]. rewrite Hx. done.
    + intros i Hi. rewrite zlook_zset by lia. replace (i =? 0) with true by lia. by rewrite accumulate_ok.
  - cbn [bind]. rewrite wr_ok by lia. cbn [bind]. eexists _, _. split; [done|]. split.
    + intros i Hi. rewrite zlook_zset by lia. replace (i =? 0) with true by lia. by rewrite accumulate_ok.
    + intros j Hj. destruct (zlook_lt (fl_measure trg) j) as [x Hx]; [lia|]. rewrite Hx. done.
  - cbn [bind]. eexists _, _. split; [done|]. split.
    + intros j Hj. destruct (zlook_lt (fl_measure src) j) as [x Hx]; [lia|]. rewrite Hx. done.
    + intros j Hj. destruct (zlook_lt (fl_measure trg) j) as [x Hx]; [lia|]. rewrite Hx. done.
Qed.
Lemma minusOne_none (src trg : field) (a b : list Qc) : fl_dim src <> -1 -> fl_dim trg <> -1 -> minusOne (fl_dim trg) (fl_dim src) a b = Ok (a, b).
Proof. intros H1 H2. unfold minusOne. replace (fl_dim trg =? -1) with false by lia. replace (fl_dim src =? -1) with false by lia. done. Qed.

Lemma foldM_ext_in {A St} (f g : St -> A -> res St) (l : list A) s : (forall s x, x ∈ l -> f s x = g s x) -> foldM f l s = foldM g l s.
Proof.
  revert s. induction l as [|x l IH]; intros s H; [done|]. cbn [foldM]. rewrite H by apply elem_of_list_here.
  destruct (g s x); cbn [bind]; [|done..]. apply IH. intros. apply H. by apply elem_of_list_further.
Qed.
Definition cell (M : matrix) (i j : Z) : Prop := exists v, (i, j, v) ∈ coeffs M.
Lemma overwritten_iff N N' c c' D : (forall p k, c p k <-> c' p k) -> overwritten N N' c D -> overwritten N N' c' D.
Proof.
  intros H (H1 & H2 & H3). split; [done|]. split; [done|]. intros p r Hp. destruct (H3 p r Hp) as (r' & Hr & Hk). exists r'. split; [done|].
  intros k. rewrite <- H. apply Hk.
Qed.
Lemma fwd_ok M deno (x D : Z -> Z -> Qc) : zlen deno = zlen M -> (forall i j v, (i, j, v) ∈ coeffs M -> x i j = D i j) ->
  exists d, foldM (fun N '(i, j, v) => vput N i j (x i j)) (coeffs M) deno = Ok d /\ overwritten deno d (cell M) D.
Proof.
  intros Hl Hx. destruct (vputs_ok (coeffs M) (fun '(i, j, v) => i) (fun '(i, j, v) => j) (fun '(i, j, v) => x i j) D deno) as (d & Hd & Ho).
  - intros [[i j] v] He. split; [|by eapply Hx]. apply elem_of_coeffs in He as (r & Hr%zlook_Some_lt & _). lia.
  - exists d. split.
    + rewrite <- Hd. apply foldM_ext. by intros ? [[? ?] ?].
    + eapply overwritten_iff; [|exact Ho]. intros p k. split.
      * intros ([[i j] v] & He & <- & <-). by exists v.
      * intros (v & He). by exists (p, k, v).
Qed.
Lemma rev_ok M denoR n (x D : Z -> Z -> Qc) : zlen denoR = n -> columns_below n M -> (forall i j v, (i, j, v) ∈ coeffs M -> x i j = D i j) ->
  exists d, foldM (fun N '(i, j, v) => vput N j i (x i j)) (coeffs M) denoR = Ok d /\ overwritten denoR d (fun j i => cell M i j) (fun j i => D i j).
Proof.
  intros Hl Hc Hx. destruct (vputs_ok (coeffs M) (fun '(i, j, v) => j) (fun '(i, j, v) => i) (fun '(i, j, v) => x i j) (fun j i => D i j) denoR) as (d & Hd & Ho).
  - intros [[i j] v] He. split; [|by eapply Hx]. rewrite Hl. by eapply Hc.
  - exists d. split.
    + rewrite <- Hd. apply foldM_ext. by intros ? [[? ?] ?].
    + eapply overwritten_iff; [|exact Ho]. intros p k. split.
      * intros ([[i j] v] & He & <- & <-). by exists v.
      * intros (v & He). by exists (k, p, v).
Qed.
Definition measurable (src trg : field) : Prop :=
  mesh_ok src /\ mesh_ok trg /\ ~ (fl_dim src = -1 /\ fl_dim trg = -1) /\
  (fl_nature src = IntensiveConservation -> fl_dim src <> -1 /\ fl_dim trg <> -1).
Lemma computeDeno_ok M deno denoR src trg :
  fl_nature src = fl_nature trg -> fl_nature src <> NoNature -> measurable src trg ->
  fl_expected trg = zlen M -> columns_below (fl_expected src) M -> zlen deno = zlen M -> zlen denoR = fl_expected src ->
  exists d d', computeDeno M deno denoR (fl_nature src) src trg = Ok (d, d') /\
    overwritten deno d (cell M) (divisor M src trg) /\
    overwritten denoR d' (fun j i => cell M i j) (fun j i => rdivisor M src trg i j).
Proof.
  intros En Hn (Ms & Mt & Hd & Hic) Et Hc L1 L2.
  destruct (fwd_ok M deno (divisor M src trg) (divisor M src trg) L1 (fun _ _ _ _ => eq_refl)) as (d & Fd & Od).
  destruct (rev_ok M denoR _ (rdivisor M src trg) (rdivisor M src trg) L2 Hc (fun _ _ _ _ => eq_refl)) as (d' & Fd' & Od').
  exists d, d'. split; [|done]. clear Od Od'.
  assert (Hin : forall i j v, (i, j, v) ∈ coeffs M -> 0 <= i < fl_expected trg /\ 0 <= j < fl_expected src).
  { intros i j v He. split; [|by eapply Hc]. apply elem_of_coeffs in He as (r & Hr%zlook_Some_lt & _). lia. }
  unfold computeDeno. destruct (fl_nature src) eqn:E; [done|..].
  - unfold ComputeRowSumAndColSum. rewrite (sums_loop M (fun s i j x => vput s i j x)).
    rewrite (foldM_ext_in _ (fun N '(i, j, v) => vput N i j (divisor M src trg i j))).
    2: { intros s [[i j] v] _. unfold divisor. by rewrite E. }
    rewrite Fd. cbn [bind]. rewrite (rows_coeffs M (fun idx denoR '(j, _) => vput denoR j idx (mget j (addvals (coeffs M) [])))).
    rewrite (foldM_ext_in _ (fun N '(i, j, v) => vput N j i (rdivisor M src trg i j))).
    2: { intros s [[i j] v] _. unfold rdivisor. rewrite <- En. by rewrite addvals_col. }
    rewrite Fd'. done.
  - destruct (minusOne_ok src trg Ms Mt Hd) as (a & b & -> & Ha & Hb). cbn [bind].
    rewrite (rows_coeffs M (fun idx '(deno, denoR) '(j, _) =>
        let* x := rd a j in let* deno := vput deno idx j x in
        let* y := rd b idx in let* denoR := vput denoR j idx y in Ok (deno, denoR))).
    rewrite <- (foldM_pair _ _ _ _ _ _ _ Fd Fd'). apply foldM_ext_in. intros [s1 s2] [[i j] v] He.
    apply Hin in He as [Hi Hj]. rewrite (rd_ok _ _ _ (Ha j Hj)), (rd_ok _ _ _ (Hb i Hi)). cbn [bind]. unfold divisor, rdivisor. by rewrite <- En, E.
  - unfold ComputeColSumAndRowSum. rewrite (sums_loop M (fun s i j x => vput s j i x)).
    rewrite (foldM_ext_in _ (fun N '(i, j, v) => vput N j i (rdivisor M src trg i j))).
    2: { intros s [[i j] v] _. unfold rdivisor. by rewrite <- En. }
    rewrite Fd'. cbn [bind]. rewrite (rows_coeffs M (fun idx deno '(j, _) => vput deno idx j (mget j (addvals (coeffs M) [])))).
    rewrite (foldM_ext_in _ (fun N '(i, j, v) => vput N i j (divisor M src trg i j))).
    2: { intros s [[i j] v] _. unfold divisor. rewrite E. by rewrite addvals_col. }
    rewrite Fd. done.
  - destruct (Hic eq_refl) as [D1 D2]. rewrite (minusOne_none src trg) by done. cbn [bind].
    rewrite (rows_coeffs M (fun idx '(deno, denoR) '(j, _) =>
        let* x := rd (fl_measure trg) idx in let* deno := vput deno idx j x in
        let* y := rd (fl_measure src) j in let* denoR := vput denoR j idx y in Ok (deno, denoR))).
    rewrite <- (foldM_pair _ _ _ _ _ _ _ Fd Fd'). apply foldM_ext_in. intros [s1 s2] [[i j] v] He.
    apply Hin in He as [Hi Hj]. destruct Ms as (_ & Ms & _), Mt as (_ & Mt & _).
    destruct (zlook_lt (fl_measure trg) i) as [x Hx]; [lia|]. destruct (zlook_lt (fl_measure src) j) as [y Hy]; [lia|].
    rewrite (rd_ok _ _ _ Hx), (rd_ok _ _ _ Hy). cbn [bind]. unfold divisor, rdivisor, measure. rewrite <- En, E.
    replace (fl_dim trg =? -1) with false by lia. replace (fl_dim src =? -1) with false by lia. rewrite Hx, Hy. done.
Qed.
