From Verif Require Import Base DataArray ArrLib FillLib RenumProofs IndexProofs IndexProofs2 IndexProofs4 IndexProofs5 SearchSpec StdProofs SkyModel SkyProofs SkyProofs8 StrModel StrSpec StrProofs.
From Coq Require Import ZifyBool ZifyNat.

(** The ids of a box in the order of the loop nest. *)
Fixpoint box_ids (st : list Z) (part : box) : list Z :=
  match st, part with
  | n :: st, (a, b) :: part => box_ids st part ≫= (fun h => (fun k => k + n * h) <$> seqZ a (b - a))
  | _, _ => [0]
  end.

Lemma foldM_fmap_l {A B S} (f : S -> B -> res S) (g : A -> B) l s : foldM f (g <$> l) s = foldM (fun s x => f s (g x)) l s.
Proof. revert s. induction l as [|x l IH]; intros s; [done|]. rewrite fmap_cons. cbn [foldM]. destruct (f s (g x)); cbn [bind]; [apply IH|done..]. Qed.
Lemma foldM_mbind_l {A B S} (f : S -> B -> res S) (g : A -> list B) l s : foldM f (l ≫= g) s = foldM (fun s x => foldM f (g x) s) l s.
Proof. revert s. induction l as [|x l IH]; intros s; [done|]. rewrite bind_cons, foldM_app. cbn [foldM]. destruct (foldM f (g x) s); cbn [bind]; [apply IH|done..]. Qed.
Lemma foldM_one {A S} (f : S -> A -> res S) x s : foldM f [x] s = f s x.
Proof. cbn [foldM]. by destruct (f s x). Qed.
Lemma forZ_shift {S} a d (g : Z -> S -> res S) s : forZ 0 d (fun k s => g (a + k) s) s = foldM (fun s k => g k s) (seqZ a d) s.
Proof.
  unfold forZ. rewrite Z.sub_0_r. replace (seqZ a d) with (Z.add a <$> seqZ 0 d).
  - rewrite foldM_fmap_l. done.
  - rewrite fmap_add_seqZ. f_equal. lia.
Qed.
Lemma forBox_ids {S} st part (body : Z -> S -> res S) s : dim_ok st -> zlen st = zlen part ->
  forBox st part (box_dims part) body s = foldM (fun s c => body c s) (box_ids st part) s.
Proof.
  intros Hd Hl. unfold zlen in Hl. destruct (wp_length3 st Hd) as [(n & ->)|[(n & m & ->)|(n & m & o & ->)]].
  - destruct part as [|[a b] [|]]; try (simpl in Hl; lia). unfold box_dims. rewrite fmap_cons. change (_ <$> []) with (@nil Z). cbn [forBox box_ids fst snd]. rewrite foldM_mbind_l, foldM_one, foldM_fmap_l.
    rewrite (forZ_shift a (b - a) body). apply foldM_ext. intros t x _. f_equal. lia.
  - destruct part as [|[a b] [|[a' b'] [|]]]; try (simpl in Hl; lia). unfold box_dims. rewrite !fmap_cons. change (_ <$> []) with (@nil Z). cbn [forBox box_ids fst snd]. rewrite !foldM_mbind_l, foldM_one, foldM_fmap_l.
    rewrite (forZ_shift a' (b' - a') (fun j s => forZ 0 (b - a) (fun k s => body (a + k + j * n) s) s)). apply foldM_ext. intros t y _.
    rewrite (forZ_shift a (b - a) (fun k s => body (k + y * n) s)), foldM_fmap_l. apply foldM_ext. intros t' x _. f_equal. lia.
  - destruct part as [|[a b] [|[a' b'] [|[a2 b2] [|]]]]; try (simpl in Hl; lia). unfold box_dims. rewrite !fmap_cons. change (_ <$> []) with (@nil Z). cbn [forBox box_ids fst snd]. rewrite !foldM_mbind_l, foldM_one, foldM_fmap_l.
    rewrite (forZ_shift a2 (b2 - a2) (fun i s => forZ 0 (b' - a') (fun j s => forZ 0 (b - a) (fun k s => body (a + k + (a' + j) * n + i * n * m) s) s) s)). apply foldM_ext. intros t z _.
    rewrite (forZ_shift a' (b' - a') (fun j s => forZ 0 (b - a) (fun k s => body (a + k + j * n + z * n * m) s) s)), foldM_fmap_l. apply foldM_ext. intros t' y _.
    rewrite (forZ_shift a (b - a) (fun k s => body (k + y * n + z * n * m) s)), foldM_fmap_l. apply foldM_ext. intros t2 x _. f_equal. lia.
Qed.

Lemma box_ids_elem st part c : zlen st = zlen part -> c ∈ box_ids st part <-> cells_of st part c.
Proof.
  revert part c. induction st as [|n st IH]; intros part c Hl.
  - destruct part as [|r part]; [|rewrite zlen_cons, zlen_nil in Hl; pose proof (zlen_nonneg part); lia]. cbn [box_ids]. rewrite elem_of_list_singleton. split.
    + intros ->. exists []. split; [constructor|done].
    + intros (pos & H & ->). inversion H; subst. done.
  - destruct part as [|[a b] part]; [rewrite zlen_cons, zlen_nil in Hl; pose proof (zlen_nonneg st); lia|]. rewrite !zlen_cons in Hl. cbn [box_ids]. rewrite elem_of_list_bind. split.
    + intros (h & Hc & Hh). apply elem_of_list_fmap in Hc as (k & -> & Hk). apply elem_of_seqZ in Hk. apply IH in Hh as (pos & Hp & ->); [|lia]. exists (k :: pos). split; [|done]. constructor; [simpl; lia|done].
    + intros (pos & H & ->). inversion H as [|? k ? pos' Hk Hp]; subst. simpl in Hk. cbn [grid_id]. exists (grid_id st pos'). split.
      * apply elem_of_list_fmap. exists k. split; [done|]. apply elem_of_seqZ. lia.
      * apply IH; [lia|]. exists pos'. done.
Qed.
Lemma box_in_len st part : box_in st part -> zlen st = zlen part.
Proof. intros H. apply Forall2_length in H. unfold zlen. lia. Qed.
Lemma box_ids_inc st part : box_in st part -> increasing (box_ids st part).
Proof.
  intros H. apply increasing_SS. revert part H. induction st as [|n st IH]; intros part H; inversion H as [|? [a b] ? part' Hr Hp]; subst.
  - cbn [box_ids]. repeat constructor.
  - cbn [box_ids]. specialize (IH _ Hp). simpl in Hr. revert IH. generalize (box_ids st part') as hs. induction hs as [|h hs IHh]; intros Hs; [constructor|].
    rewrite bind_cons. inversion Hs as [|? ? Hs' Hlt]; subst. specialize (IHh Hs').
    apply increasing_SS. apply increasing_SS in IHh. assert (increasing ((fun k => k + n * h) <$> seqZ a (b - a))) as H0.
    { intros i j x y Hij Hx Hy. rewrite zlook_fmap in Hx, Hy. destruct (seqZ a (b-a) @ i) eqn:E1; [|done]. destruct (seqZ a (b-a) @ j) eqn:E2; [|done]. pose proof (zlook_Some_lt _ _ _ E1) as B1. pose proof (zlook_Some_lt _ _ _ E2) as B2. unfold zlen in B1, B2. rewrite seqZ_length in B1, B2.
      rewrite zlook_seqZ in E1 by lia. rewrite zlook_seqZ in E2 by lia. simpl in *. injection Hx as <-. injection Hy as <-. injection E1 as <-. injection E2 as <-. lia. }
    assert (forall x y, x ∈ ((fun k => k + n * h) <$> seqZ a (b - a)) -> y ∈ (hs ≫= (fun h => (fun k => k + n * h) <$> seqZ a (b - a))) -> x < y) as H1.
    { intros x y Hx Hy. apply elem_of_list_fmap in Hx as (k & -> & Hk). apply elem_of_list_bind in Hy as (h' & Hy & Hh'). apply elem_of_list_fmap in Hy as (k' & -> & Hk'). apply elem_of_seqZ in Hk, Hk'.
      assert (h < h'). { rewrite Forall_forall in Hlt. apply Hlt. done. } nia. }
    intros i j x y Hij Hx Hy. rewrite zlook_app in Hx, Hy. set (L := zlen ((fun k => k + n * h) <$> seqZ a (b - a))) in *.
    destruct (i <? L) eqn:E1, (j <? L) eqn:E2.
    + eapply H0; [exact Hij|exact Hx|exact Hy].
    + apply H1; eapply zlook_elem; done.
    + lia.
    + eapply (IHh (i - L) (j - L)); [lia|exact Hx|exact Hy].
Qed.
Lemma box_ids_enum st part : box_in st part -> enumerates (cells_of st part) (box_ids st part).
Proof. intros H. split; [by apply box_ids_inc|]. intros c. apply box_ids_elem. by apply box_in_len. Qed.
Lemma zlen_mbind {A B} (g : A -> list B) l c : (forall x, x ∈ l -> zlen (g x) = c) -> zlen (l ≫= g) = zlen l * c.
Proof. induction l as [|x l IH]; intros H; [done|]. rewrite bind_cons, zlen_app, zlen_cons, (H x) by (left). rewrite IH by (intros y Hy; apply H; by right). lia. Qed.
Lemma box_ids_len st part : zlen st = zlen part -> Forall (fun r => fst r <= snd r) part -> zlen (box_ids st part) = grid_nb (box_dims part).
Proof.
  revert part. induction st as [|n st IH]; intros part Hl Hp.
  - destruct part as [|r part]; [done|rewrite zlen_cons, zlen_nil in Hl; pose proof (zlen_nonneg part); lia].
  - destruct part as [|[a b] part]; [rewrite zlen_cons, zlen_nil in Hl; pose proof (zlen_nonneg st); lia|]. rewrite !zlen_cons in Hl. inversion Hp as [|?? Hr Hp']; subst. simpl in Hr. cbn [box_ids]. unfold box_dims. rewrite fmap_cons. cbn [grid_nb fst snd].
    rewrite (zlen_mbind _ _ (b - a)); [rewrite IH by (try done; lia); unfold box_dims; lia|]. intros h _. rewrite zlen_fmap. unfold zlen. rewrite seqZ_length. lia.
Qed.
Lemma box_in_le st part : box_in st part -> Forall (fun r => fst r <= snd r) part.
Proof. induction 1; constructor; [lia|done]. Qed.
Lemma cells_of_range st part c : box_in st part -> cells_of st part c -> 0 <= c < grid_nb st.
Proof.
  intros Hb (pos & Hp & ->). apply grid_id_range. revert pos Hp. induction Hb as [|n r st part Hr Hb IH]; intros pos Hp; inversion Hp; subst; constructor; [lia|]. by apply IH.
Qed.

(** ** The checks *)
Lemma checkedDims_ok st part : box_in st part -> checkedDims st part = Ok (box_dims part).
Proof.
  intros Hb. unfold checkedDims.
  assert (forall pre predims, foldM (fun '(i, dims) '(a, b) => let* n := rd (pre ++ st) i in throw_if (a <? 0) || (n <? a) >>> throw_if (b <? 0) || (n <? b) >>> throw_if b <? a >>> Ok (i + 1, dims ++ [b - a])) part (zlen pre, predims)
    = Ok (zlen pre + zlen st, predims ++ box_dims part)) as H.
  { induction Hb as [|n [a b] st part Hr Hb IH]; intros pre predims; [cbn [foldM]; unfold box_dims; rewrite app_nil_r; do 2 f_equal; rewrite zlen_nil; lia|]. simpl in Hr. cbn [foldM].
    rewrite (rd_ok _ _ n) by (rewrite zlook_app_r by lia; rewrite Z.sub_diag; done). cbn [bind]. replace ((a <? 0) || _) with false by lia. cbn [ifthrow]. replace ((b <? 0) || _) with false by lia. cbn [ifthrow]. replace (b <? a) with false by lia. cbn [ifthrow bind].
    specialize (IH (pre ++ [n]) (predims ++ [b - a])). rewrite zlen_app in IH. change (zlen [n]) with 1 in IH. rewrite <- app_assoc in IH. cbn [app] in IH. rewrite IH. do 2 f_equal; [rewrite zlen_cons; lia|]. unfold box_dims. rewrite fmap_cons, <- app_assoc. done. }
  specialize (H [] []). cbn [app] in H. change (@zlen Z []) with 0 in H. rewrite H. done.
Qed.
Lemma checkedDims_throw st part : zlen st = zlen part -> ~ box_in st part -> checkedDims st part = Throw.
Proof.
  intros Hl Hb. unfold checkedDims.
  assert (forall pre predims, foldM (fun '(i, dims) '(a, b) => let* n := rd (pre ++ st) i in throw_if (a <? 0) || (n <? a) >>> throw_if (b <? 0) || (n <? b) >>> throw_if b <? a >>> Ok (i + 1, dims ++ [b - a])) part (zlen pre, predims)
    = Throw) as H.
  { revert part Hl Hb. induction st as [|n st IH]; intros part Hl Hb pre predims.
    - destruct part as [|r part]; [destruct Hb; constructor|rewrite zlen_cons, zlen_nil in Hl; pose proof (zlen_nonneg part); lia].
    - destruct part as [|[a b] part]; [rewrite zlen_cons, zlen_nil in Hl; pose proof (zlen_nonneg st); lia|]. rewrite !zlen_cons in Hl. cbn [foldM].
      rewrite (rd_ok _ _ n) by (rewrite zlook_app_r by lia; rewrite Z.sub_diag; done). cbn [bind]. destruct ((a <? 0) || (n <? a)) eqn:E1; [done|]. cbn [ifthrow]. destruct ((b <? 0) || (n <? b)) eqn:E2; [done|]. cbn [ifthrow]. destruct (b <? a) eqn:E3; [done|]. cbn [ifthrow bind].
      specialize (IH part ltac:(lia)). assert (~ box_in st part) as Hn. { intros Hx. apply Hb. constructor; [simpl; lia|done]. }
      specialize (IH Hn (pre ++ [n]) (predims ++ [b - a])). rewrite zlen_app in IH. change (zlen [n]) with 1 in IH. rewrite <- app_assoc in IH. cbn [app] in IH. rewrite IH. done. }
  specialize (H [] []). cbn [app] in H. change (@zlen Z []) with 0 in H. rewrite H. done.
Qed.
Lemma getDims_from pre part : Forall (fun r => fst r <= snd r) part -> foldM (fun ret '(a, b) => throw_if b <? a >>> Ok (ret ++ [b - a])) part pre = Ok (pre ++ box_dims part).
Proof.
  intros H. revert pre. induction H as [|[a b] part Hr _ IH]; intros pre; [cbn [foldM]; by rewrite app_nil_r|]. simpl in Hr. cbn [foldM]. replace (b <? a) with false by lia. cbn [ifthrow bind]. rewrite IH, <- app_assoc. done.
Qed.
Lemma getDims_ok part : Forall (fun r => fst r <= snd r) part -> GetDimensionsFromCompactFrmt part = Ok (box_dims part).
Proof. intros H. unfold GetDimensionsFromCompactFrmt. by rewrite getDims_from. Qed.
Lemma nbStruct_from a st : Forall (Z.le 0) st -> foldM (fun ret n => throw_if n <? 0 >>> Ok (ret * n)) st a = Ok (a * grid_nb st).
Proof.
  intros H. revert a. induction H as [|n st Hn _ IH]; intros a; [cbn; f_equal; lia|]. cbn [foldM grid_nb]. replace (n <? 0) with false by lia. cbn [ifthrow bind]. rewrite IH. f_equal. lia.
Qed.
Lemma nbStruct_ok st : Forall (Z.le 0) st -> st <> [] -> DeduceNumberOfGivenStructure st = Ok (grid_nb st).
Proof. intros H Hne. unfold DeduceNumberOfGivenStructure. rewrite nbStruct_from by done. cbn [bind]. rewrite bool_decide_eq_false_2 by done. f_equal. lia. Qed.
Lemma dim_ok_ne {A} (l : list A) : dim_ok l -> l <> [].
Proof. intros H ->. unfold dim_ok in H. rewrite zlen_nil in H. lia. Qed.
Lemma box_dims_nonneg part : Forall (fun r => fst r <= snd r) part -> Forall (Z.le 0) (box_dims part).
Proof. induction 1; constructor; [lia|done]. Qed.
Lemma box_in_nonneg st part : box_in st part -> Forall (Z.le 0) st.
Proof. induction 1; constructor; [lia|done]. Qed.

(** ** BuildExplicitIdsFrom *)
Lemma explicit_ok st part : dim_ok st -> box_in st part -> BuildExplicitIdsFrom st part = Ok (box_ids st part).
Proof.
  intros Hd Hb. unfold BuildExplicitIdsFrom. pose proof (box_in_len _ _ Hb) as Hl. rewrite Hl, Z.eqb_refl. cbn [negb ifthrow]. rewrite checkedDims_ok by done. cbn [bind].
  rewrite grid_nb_foldl, Z.mul_1_l. pose proof (grid_nb_nonneg _ (box_dims_nonneg _ (box_in_le _ _ Hb))). rewrite alloc1 by done. cbn [bind]. rewrite forBox_ids by done.
  pose proof (box_ids_len st part Hl (box_in_le _ _ Hb)) as Hn. rewrite <- Hn. set (ids := box_ids st part).
  set (stt := fun k : list Z => ((Some <$> k) ++ malloc Z (zlen ids - zlen k), zlen k)). replace (malloc Z (zlen ids), 0) with (stt []) by (unfold stt; rewrite zlen_nil, Z.sub_0_r; done).
  rewrite (foldM_blocks _ eq stt ids ids); unfold stt.
  - cbn [bind]. rewrite Z.sub_diag, malloc_0, app_nil_r. apply initialised_ok.
  - clear. induction ids; constructor; done.
  - intros pre x b post He <-. rewrite wrc_fill; [cbn [bind]; rewrite zlen_app; change (zlen [x]) with 1; do 4 f_equal; lia| |done]. rewrite He, zlen_app, zlen_cons. pose proof (zlen_nonneg post). lia.
Qed.
Lemma explicit_throw st part : zlen st <> zlen part \/ ~ box_in st part -> BuildExplicitIdsFrom st part = Throw.
Proof.
  intros H. unfold BuildExplicitIdsFrom. destruct (zlen st =? zlen part) eqn:E; [|done]. cbn [negb ifthrow]. destruct H as [H|H]; [lia|]. rewrite checkedDims_throw by (try done; lia). done.
Qed.
Lemma explicit_dim st part : box_in st part -> 3 < zlen st -> BuildExplicitIdsFrom st part = Throw.
Proof.
  intros Hb H3. unfold BuildExplicitIdsFrom. pose proof (box_in_len _ _ Hb) as Hl. rewrite Hl, Z.eqb_refl. cbn [negb ifthrow]. rewrite checkedDims_ok by done. cbn [bind].
  rewrite grid_nb_foldl, Z.mul_1_l. pose proof (grid_nb_nonneg _ (box_dims_nonneg _ (box_in_le _ _ Hb))). rewrite alloc1 by done. cbn [bind].
  destruct st as [|n0 [|n1 [|n2 [|n3 st]]]]; try (unfold zlen in H3; simpl in H3; lia). done.
Qed.
