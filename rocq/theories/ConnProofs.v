From Verif Require Import Base DataArray ArrLib FillLib RenumProofs IndexSpec IndexProofs IndexProofs2 IndexProofs3 IndexProofs4 IndexProofs5 SearchSpec StdProofs SkyModel SkyProofs SkyProofs8 StrModel StrSpec StrProofs StrProofs2 ConnModel ConnSpec.
From Coq Require Import ZifyBool ZifyNat.

(** The positions of the nodes in the order of their ids. *)
Fixpoint allpos (ngs : list Z) : list (list Z) :=
  match ngs with [] => [[]] | n :: ngs => allpos ngs ≫= (fun h => (fun p => p :: h) <$> seqZ 0 n) end.
(** The cells around a node form a box. *)
Definition around (n p : Z) : Z * Z := (Z.max 0 (p - 1), Z.min (Z.max 1 (n - 1)) (p + 1)).
Definition cells (ngs pos : list Z) : list Z := box_ids (cell_axes ngs) (zip_with around ngs pos).
Definition packs (ngs : list Z) : list (list Z) := cells ngs <$> allpos ngs.
Definition run (ps : list (list Z)) (s : revst) : res revst := foldM (fun s c => node c (zlen c) s) ps s.

Definition rst (m n : Z) (ps : list (list Z)) : revst := (ost m ps, zlen (concat ps), (iost n (zlen <$> ps), zlen ps)).
Lemma fill_cells m k (xs : list Z) : zlen k + zlen xs <= m ->
  foldM (fun '(rn, j) x => let* rn := wrc rn (zlen k + j) x in Ok (rn, j + 1)) xs ((Some <$> k) ++ malloc Z (m - zlen k), 0)
  = Ok ((Some <$> (k ++ xs)) ++ malloc Z (m - zlen (k ++ xs)), zlen xs).
Proof.
  intros Hm. set (stt := fun l : list Z => ((Some <$> (k ++ l)) ++ malloc Z (m - zlen (k ++ l)), zlen l)).
  replace ((Some <$> k) ++ malloc Z (m - zlen k), 0) with (stt []) by (unfold stt; rewrite app_nil_r; done).
  rewrite (foldM_blocks _ eq stt xs xs); unfold stt.
  - done.
  - clear. induction xs; constructor; done.
  - intros pre x b post -> ->. rewrite !zlen_app, zlen_cons in Hm. pose proof (zlen_nonneg post). rewrite wrc_fill by (rewrite ?zlen_app; lia). cbn [bind]. rewrite <- app_assoc, !zlen_app. change (zlen [b]) with 1. do 2 f_equal. do 2 f_equal. lia.
Qed.
Lemma concat_app1 {A} (ps : list (list A)) p : concat (ps ++ [p]) = concat ps ++ p.
Proof. rewrite concat_app. simpl. by rewrite app_nil_r. Qed.
Lemma node_ok m n ps c : zlen (concat ps) + zlen c <= m -> zlen ps < n -> node c (zlen c) (rst m n ps) = Ok (rst m n (ps ++ [c])).
Proof.
  intros Hm Hn. unfold rst, node, ost. rewrite fill_cells by done. cbn [bind]. rewrite concat_app1.
  assert (rdc (iost n (zlen <$> ps)) (zlen ps) = Ok (zsum (zlen <$> ps))) as ->. { pose proof (iost_rd n (zlen <$> ps)) as Hr. rewrite zlen_fmap in Hr. done. }
  cbn [bind]. rewrite (iost_wr n (zlen <$> ps) (zlen c)) by (rewrite ?zlen_fmap; lia). cbn [bind]. rewrite (fmap_snoc zlen ps c), (zlen_app ps), !(zlen_app (concat ps)). done.
Qed.
Lemma run_rev m n ps : zlen (concat ps) <= m -> zlen ps <= n -> run ps (malloc Z m, 0, (iost n [], 0)) = Ok (rst m n ps).
Proof.
  intros Hm Hn. unfold run. replace (malloc Z m, 0, (iost n [], 0)) with (rst m n []) by (unfold rst, ost; simpl; rewrite Z.sub_0_r; done).
  apply (foldM_blocks _ eq (rst m n) ps ps); [clear; induction ps; constructor; done|].
  intros pre x b post -> ->. rewrite concat_app, zlen_app in Hm. simpl in Hm. rewrite zlen_app in Hm. rewrite zlen_app, zlen_cons in Hn. pose proof (zlen_nonneg post). pose proof (zlen_nonneg (concat post)). apply node_ok; lia.
Qed.
Lemma rev_finish ps m n : m = zlen (concat ps) -> n = zlen ps -> finishRev (rst m n ps) = Ok (concat ps, psums (zlen <$> ps)).
Proof.
  intros -> ->. unfold finishRev, rst, ost. rewrite Z.sub_diag, malloc_0, app_nil_r, initialised_ok. cbn [bind]. assert (iost (zlen ps) (zlen <$> ps) = Some <$> psums (zlen <$> ps)) as -> by (rewrite <- (zlen_fmap zlen ps) at 1; apply iost_end). rewrite initialised_ok. done.
Qed.

(** ** Number of positions and total size *)
Lemma allpos_len ngs : Forall (Z.le 0) ngs -> zlen (allpos ngs) = grid_nb ngs.
Proof.
  induction 1 as [|n ngs Hn _ IH]; [done|]. cbn [allpos grid_nb]. rewrite (zlen_mbind _ _ n); [lia|]. intros h _. rewrite zlen_fmap, zlen_seqZ by lia. lia.
Qed.
Lemma zsum_app a b : zsum (a ++ b) = zsum a + zsum b.
Proof. unfold zsum. induction a as [|x a IH]; simpl; lia. Qed.
Lemma zsum_bind {A} (g : A -> list Z) l : zsum (l ≫= g) = zsum ((fun x => zsum (g x)) <$> l).
Proof. induction l as [|x l IH]; [done|]. rewrite bind_cons, zsum_app, IH. done. Qed.
Lemma zsum_scale c l : zsum ((fun x => x * c) <$> l) = zsum l * c.
Proof. induction l as [|x l IH]; [done|]. rewrite fmap_cons. unfold zsum in *. cbn [foldr]. lia. Qed.
Lemma fmap_bind_l {A B C} (f : B -> C) (g : A -> list B) l : f <$> (l ≫= g) = l ≫= (fun x => f <$> g x).
Proof. induction l as [|x l IH]; [done|]. rewrite !bind_cons, fmap_app, IH. done. Qed.
Lemma seqZ_ends n : 2 <= n -> seqZ 0 n = 0 :: seqZ 1 (n - 2) ++ [n - 1].
Proof.
  intros Hn. rewrite (seqZ_cons 0) by lia. f_equal. change (Z.succ 0) with 1. replace (Z.pred n) with ((n - 2) + 1) by lia. rewrite seqZ_app by lia. do 2 f_equal. unfold seqZ. simpl. do 2 f_equal. lia.
Qed.
Definition width (n p : Z) : Z := (around n p).2 - (around n p).1.
Lemma width_sum n : 2 <= n -> zsum (width n <$> seqZ 0 n) = 2 * (n - 1).
Proof.
  intros Hn. rewrite seqZ_ends by done. rewrite fmap_cons, fmap_app. change (zsum (width n 0 :: ?l)) with (width n 0 + zsum l). rewrite zsum_app.
  replace (zsum (width n <$> seqZ 1 (n - 2))) with (2 * (n - 2)).
  - change (zsum (width n <$> [n - 1])) with (width n (n - 1) + 0). unfold width, around. simpl fst. simpl snd. lia.
  - assert (forall k a, 1 <= a -> a + Z.of_nat k <= n - 1 -> zsum (width n <$> seqZ a (Z.of_nat k)) = 2 * Z.of_nat k) as H.
    { induction k as [|k IH]; intros a Ha Hk; [done|]. rewrite seqZ_cons by lia. rewrite fmap_cons. change (zsum (?x :: ?l)) with (x + zsum l). replace (Z.pred (Z.of_nat (S k))) with (Z.of_nat k) by lia. rewrite IH by lia. unfold width, around. simpl fst. simpl snd. lia. }
    specialize (H (Z.to_nat (n - 2)) 1 ltac:(lia) ltac:(lia)). rewrite Z2Nat.id in H by lia. lia.
Qed.
Fixpoint total (ngs : list Z) : Z := match ngs with [] => 1 | n :: l => total l * (2 * (n - 1)) end.
Lemma allpos_in ngs pos : Forall (Z.le 0) ngs -> pos ∈ allpos ngs <-> in_grid ngs pos.
Proof.
  intros H. revert pos. induction H as [|n ngs Hn _ IH]; intros pos; cbn [allpos].
  - rewrite elem_of_list_singleton. split; [intros ->; constructor|]. intros H. by inversion H.
  - rewrite elem_of_list_bind. split.
    + intros (h & Hp & Hh). apply elem_of_list_fmap in Hp as (p & -> & Hp). apply elem_of_seqZ in Hp. apply IH in Hh. constructor; [lia|done].
    + intros Hg. inversion Hg as [|? p ? h Hp Hh]; subst. exists h. split; [|by apply IH]. apply elem_of_list_fmap. exists p. split; [done|]. apply elem_of_seqZ. lia.
Qed.
Lemma around_in ngs pos : Forall (Z.le 1) ngs -> in_grid ngs pos -> box_in (cell_axes ngs) (zip_with around ngs pos).
Proof.
  intros H1 Hg. induction Hg as [|n p ngs pos Hp _ IH]; [constructor|]. inversion H1; subst. constructor; [|by apply IH]. unfold around. simpl fst. simpl snd. lia.
Qed.
Lemma cells_len n ngs p pos : Forall (Z.le 1) (n :: ngs) -> in_grid (n :: ngs) (p :: pos) -> zlen (cells (n :: ngs) (p :: pos)) = width n p * zlen (cells ngs pos).
Proof.
  intros H1 Hg. pose proof (around_in _ _ H1 Hg) as Hb. inversion H1; subst. inversion Hg; subst. assert (in_grid ngs pos) as Hg' by done. pose proof (around_in _ _ H3 Hg') as Hb'. unfold cells.
  rewrite !box_ids_len by (try apply box_in_len; try eapply box_in_le; done). done.
Qed.
Lemma concat_len (ps : list (list Z)) : zlen (concat ps) = zsum (zlen <$> ps).
Proof. induction ps as [|p ps IH]; [done|]. simpl concat. rewrite zlen_app, IH. done. Qed.
Lemma packs_total ngs : Forall (Z.le 2) ngs -> zlen (concat (packs ngs)) = total ngs.
Proof.
  intros H. assert (Forall (Z.le 1) ngs) as H1 by (eapply Forall_impl; [exact H|intros; simpl in *; lia]). rewrite concat_len. unfold packs. induction H as [|n ngs Hn H IH]; [done|]. cbn [allpos total].
  inversion H1; subst. rewrite <- IH by done. rewrite <- list_fmap_compose, fmap_bind_l, zsum_bind. rewrite <- zsum_scale. f_equal. rewrite <- !list_fmap_compose. apply list_fmap_ext. intros i h Hh. apply elem_of_list_lookup_2 in Hh.
  assert (in_grid ngs h) as Hg. { apply allpos_in in Hh; [done|]. eapply Forall_impl; [exact H|intros; simpl in *; lia]. }
  rewrite <- list_fmap_compose. simpl. rewrite <- (width_sum n) by done. rewrite (Z.mul_comm (zlen (cells ngs h))), <- zsum_scale, <- list_fmap_compose. f_equal. apply list_fmap_ext. intros j p Hp. apply elem_of_list_lookup_2, elem_of_seqZ in Hp. simpl. apply cells_len; [done|]. constructor; [lia|done].
Qed.
Lemma allpos_look ngs pos : in_grid ngs pos -> allpos ngs @ grid_id ngs pos = Some pos.
Proof.
  intros Hg. induction Hg as [|n p ngs pos Hp Hg IH]; [done|]. cbn [allpos grid_id]. rewrite Z.add_comm.
  revert IH. pose proof (grid_id_range _ _ Hg) as Hr. revert Hr. generalize (grid_id ngs pos) as i. generalize (grid_nb ngs) as N. generalize (allpos ngs) as L. clear Hg. intros L N i Hr.
  revert i N Hr. induction L as [|h L IH]; intros i N Hr Hi; [by rewrite zlook_nil in Hi|]. rewrite bind_cons. assert (zlen ((fun q : Z => q :: h) <$> seqZ 0 n) = n) as Hl by (rewrite zlen_fmap, zlen_seqZ; lia).
  rewrite zlook_cons in Hi. destruct (decide (i = 0)) as [->|Hne].
  - rewrite Z.eqb_refl in Hi. injection Hi as ->. rewrite zlook_app_l by lia. rewrite zlook_fmap, zlook_seqZ by lia. simpl. do 2 f_equal. lia.
  - replace (i =? 0) with false in Hi by lia. rewrite zlook_app_r by nia. rewrite Hl. rewrite <- (IH (i - 1) (N - 1)) by (try lia; done). f_equal. lia.
Qed.
