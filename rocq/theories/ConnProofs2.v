From Verif Require Import Base DataArray ArrLib FillLib RenumProofs IndexSpec IndexProofs IndexProofs2 IndexProofs3 IndexProofs4 IndexProofs5 SearchSpec StdProofs SkyModel SkyProofs SkyProofs8 StrModel StrSpec StrProofs StrProofs2 ConnModel ConnSpec ConnProofs.
From Coq Require Import ZifyBool ZifyNat.

Definition nd (c : list Z) (s : revst) : res revst := node c (zlen c) s.
(** The cells along one axis around the node [p]. *)
Definition axl (n p : Z) : list Z := seqZ (around n p).1 ((around n p).2 - (around n p).1).
Lemma axl_first n : 2 <= n -> axl n 0 = [0].
Proof. intros. unfold axl, around. simpl fst. simpl snd. replace (Z.max 0 _) with 0 by lia. replace (_ - 0) with 1 by lia. done. Qed.
Lemma axl_mid n p : 0 < p < n - 1 -> axl n p = [p - 1; p].
Proof.
  intros. unfold axl, around. simpl fst. simpl snd. replace (Z.max 0 _) with (p - 1) by lia. replace (_ - (p - 1)) with 2 by lia. rewrite seqZ_cons by lia. rewrite seqZ_cons by lia. simpl. do 2 f_equal. lia.
Qed.
Lemma axl_last n : 2 <= n -> axl n (n - 1) = [n - 2].
Proof. intros. unfold axl, around. simpl fst. simpl snd. replace (Z.max 0 _) with (n - 2) by lia. replace (_ - (n - 2)) with 1 by lia. rewrite seqZ_cons by lia. done. Qed.
Lemma cells_cons n ngs p h : cells (n :: ngs) (p :: h) = cells ngs h ≫= (fun x => (fun k => k + Z.max 1 (n - 1) * x) <$> axl n p).
Proof. done. Qed.
Lemma cells_nil : cells [] [] = [0].
Proof. done. Qed.
Lemma cells1 n p : cells [n] [p] = axl n p.
Proof. rewrite cells_cons, cells_nil, bind_cons. change ([] ≫= _) with (@nil Z). rewrite app_nil_r, Z.mul_0_r. rewrite <- list_fmap_id. apply list_fmap_ext. intros. simpl. lia. Qed.
Lemma run_cons n ngs s : run (packs (n :: ngs)) s = foldM (fun s h => foldM (fun s p => nd (cells (n :: ngs) (p :: h)) s) (seqZ 0 n) s) (allpos ngs) s.
Proof.
  unfold run, packs. rewrite foldM_fmap_l. cbn [allpos]. rewrite foldM_mbind_l. apply foldM_ext. intros t h _. rewrite foldM_fmap_l. done.
Qed.
Lemma foldM_app' {A S} (f : S -> A -> res S) l1 l2 s : foldM f (l1 ++ l2) s = let* s := foldM f l1 s in foldM f l2 s.
Proof. apply foldM_app. Qed.
Lemma bind_ext {A B} (m : res A) (f g : A -> res B) : (forall x, f x = g x) -> bind m f = bind m g.
Proof. intros H. destruct m; cbn [bind]; [apply H|done..]. Qed.
Lemma foldM_ends {S} (f : S -> Z -> res S) n s : 2 <= n ->
  foldM f (seqZ 0 n) s = let* s := f s 0 in let* s := forZ 1 (n - 1) (fun i s => f s i) s in f s (n - 1).
Proof.
  intros Hn. rewrite seqZ_ends by done. cbn [foldM]. apply bind_ext. intros t. rewrite foldM_app'. unfold forZ. replace (n - 1 - 1) with (n - 2) by lia. apply bind_ext. intros u. apply foldM_one.
Qed.
Lemma forZ_ext' {S} lo hi (f g : Z -> S -> res S) s : (forall i t, lo <= i < hi -> f i t = g i t) -> forZ lo hi f s = forZ lo hi g s.
Proof. intros H. unfold forZ. apply foldM_ext. intros t i Hi. apply elem_of_seqZ in Hi. apply H. lia. Qed.

Lemma rev1_run n s : 2 <= n ->
  (let* s := node [0] 1 s in let* s := forZ 1 (n - 1) (fun i s => node [i - 1; i] 2 s) s in node [n - 2] 1 s) = run (packs [n]) s.
Proof.
  intros Hn. rewrite run_cons. cbn [allpos]. rewrite foldM_one, foldM_ends by done. rewrite !cells1. rewrite axl_first, axl_last by done. apply bind_ext. intros t.
  rewrite (forZ_ext' _ _ _ (fun i s => nd (cells [n] [i]) s)); [done|]. intros i u Hi. rewrite cells1, axl_mid by lia. done.
Qed.
Lemma packs_len ngs : Forall (Z.le 0) ngs -> zlen (packs ngs) = grid_nb ngs.
Proof. intros. unfold packs. rewrite zlen_fmap. by apply allpos_len. Qed.
Definition rev_result (ngs : list Z) : list Z * list Z := (concat (packs ngs), psums (zlen <$> packs ngs)).
Lemma reverse1_ok n : 2 <= n -> Reverse1 n = Ok (rev_result [n]).
Proof.
  intros Hn. unfold Reverse1. rewrite alloc1 by lia. cbn [bind]. replace (n =? 0) with false by lia. replace (n =? 1) with false by lia. rewrite alloc1 by lia. cbn [bind]. rewrite iost_start by lia. cbn [bind].
  pose proof (rev1_run n (malloc Z (2 * (n - 1)), 0, (iost n [], 0)) Hn) as H. rewrite run_rev in H.
  - destruct (node [0] 1 _) as [t| | |]; try discriminate H. cbn [bind] in H |- *. destruct (forZ 1 (n - 1) _ t) as [u| | |]; try discriminate H. cbn [bind] in H |- *. rewrite H. cbn [bind]. apply rev_finish.
    + rewrite packs_total by (repeat constructor; lia). cbn [total]. lia.
    + rewrite packs_len by (repeat constructor; lia). cbn [grid_nb]. lia.
  - rewrite packs_total by (repeat constructor; lia). cbn [total]. lia.
  - rewrite packs_len by (repeat constructor; lia). cbn [grid_nb]. lia.
Qed.

Lemma cells2 n m p q : 2 <= n -> cells [n; m] [p; q] = axl m q ≫= (fun x => (fun k => k + (n - 1) * x) <$> axl n p).
Proof. intros. rewrite cells_cons, cells1. replace (Z.max 1 (n - 1)) with (n - 1) by lia. done. Qed.
Ltac lists := repeat match goal with |- _ :: _ = _ :: _ => apply (f_equal2 cons); [lia|] end; reflexivity.
Lemma rev2_run nx ny s : 2 <= nx -> 2 <= ny ->
  (let* s := (
    let* s := node [0] 1 s in
    let* s := forZ 1 (nx - 1) (fun i s => node [i - 1; i] 2 s) s in
    node [nx - 1 - 1] 1 s) in
  let* s := forZ 1 (ny - 1) (fun j s =>
    let off := (nx - 1) * (j - 1) in let off2 := (nx - 1) * j in
    let* s := node [off; off2] 2 s in
    let* s := forZ 1 (nx - 1) (fun i s => node [i - 1 + off; i + off; i - 1 + off2; i + off2] 4 s) s in
    node [off + (nx - 1) - 1; off2 + (nx - 1) - 1] 2 s) s in
  let off3 := (nx - 1) * (ny - 1 - 1) in
    let* s := node [off3] 1 s in
    let* s := forZ 1 (nx - 1) (fun i s => node [i - 1 + off3; i + off3] 2 s) s in
    node [(nx - 1) * (ny - 1) - 1] 1 s) = run (packs [nx; ny]) s.
Proof.
  intros Hx Hy. rewrite run_cons. cbn [allpos]. rewrite foldM_mbind_l, foldM_one, foldM_fmap_l, foldM_ends by done.
  assert (forall q c d e s, (cells [nx; ny] [0; q] = c) -> (forall i, 0 < i < nx - 1 -> cells [nx; ny] [i; q] = d i) -> cells [nx; ny] [nx - 1; q] = e ->
    foldM (fun s p => nd (cells [nx; ny] [p; q]) s) (seqZ 0 nx) s = let* s := nd c s in let* s := forZ 1 (nx - 1) (fun i s => nd (d i) s) s in nd e s) as Hrow.
  { intros q c d e t <- Hd <-. rewrite foldM_ends by done. apply bind_ext. intros u. rewrite (forZ_ext' _ _ _ (fun i s => nd (d i) s)); [done|]. intros i v Hi. rewrite Hd by lia. done. }
  rewrite (Hrow 0 [0] (fun i => [i - 1; i]) [nx - 1 - 1]).
  2: { rewrite cells2, !axl_first by lia. rewrite bind_cons, fmap_cons. simpl. f_equal. lia. }
  2: { intros i Hi. rewrite cells2, axl_first, axl_mid by lia. rewrite bind_cons, !fmap_cons. simpl. lists. }
  2: { rewrite cells2, axl_first, axl_last by lia. rewrite bind_cons, !fmap_cons. simpl. lists. }
  match goal with |- bind ?a _ = bind ?b _ => change b with a end. apply bind_ext. intros t.
  match goal with |- bind ?a _ = bind ?b _ => assert (a = b) as -> end.
  { apply forZ_ext'. intros j u Hj. cbv zeta. symmetry. apply (Hrow j [_; _] (fun i => [_; _; _; _]) [_; _]).
    - rewrite cells2, axl_first, axl_mid by lia. rewrite !bind_cons, !fmap_cons. simpl. lists.
    - intros i Hi. rewrite cells2, !axl_mid by lia. rewrite !bind_cons, !fmap_cons. simpl. lists.
    - rewrite cells2, axl_last, axl_mid by lia. rewrite !bind_cons, !fmap_cons. simpl. lists. }
  apply bind_ext. intros u. cbv zeta. symmetry. apply (Hrow (ny - 1) [_] (fun i => [_; _]) [_]).
  - rewrite cells2, axl_first, axl_last by lia. rewrite !bind_cons, !fmap_cons. simpl. lists.
  - intros i Hi. rewrite cells2, axl_last, axl_mid by lia. rewrite !bind_cons, !fmap_cons. simpl. lists.
  - rewrite cells2, !axl_last by lia. rewrite !bind_cons, !fmap_cons. simpl. f_equal. lia.
Qed.
Lemma bind_assoc {A B C} (m : res A) (f : A -> res B) (g : B -> res C) : bind (bind m f) g = bind m (fun x => bind (f x) g).
Proof. by destruct m. Qed.
Lemma reverse2_ok nx ny : 2 <= nx -> 2 <= ny -> Reverse2 nx ny = Ok (rev_result [nx; ny]).
Proof.
  intros Hx Hy. unfold Reverse2. replace ((nx =? 0) || _) with false by lia. replace ((nx =? 1) || _) with false by lia. rewrite alloc1 by nia. cbn [bind]. rewrite alloc1 by nia. cbn [bind]. rewrite iost_start by nia. cbn [bind].
  set (M := 4 * _ * _ + _ + _ + 4). pose proof (rev2_run nx ny (malloc Z M, 0, (iost (nx * ny) [], 0)) Hx Hy) as H.
  assert (M = total [nx; ny]) as HM by (unfold M; cbn [total]; lia). assert (Forall (Z.le 2) [nx; ny]) as H2 by (repeat constructor; done). assert (Forall (Z.le 0) [nx; ny]) as H0 by (repeat constructor; lia).
  rewrite run_rev in H.
  2: { rewrite packs_total by done. lia. }
  2: { rewrite packs_len by done. cbn [grid_nb]. lia. }
  cbv zeta in H |- *. match goal with |- bind ?a ?f = _ => destruct a as [t| | |]; try discriminate H end. cbn [bind] in H |- *. match goal with |- bind ?a ?f = _ => destruct a as [u| | |]; try discriminate H end. cbn [bind] in H |- *. rewrite H. cbn [bind]. apply rev_finish.
  - rewrite packs_total by done. lia.
  - rewrite packs_len by done. cbn [grid_nb]. lia.
Qed.
