From Verif Require Import Base DataArray ArrLib FillLib RenumProofs IndexSpec IndexProofs IndexProofs2 IndexProofs3 IndexProofs4 IndexProofs5 SearchSpec StdProofs SkyModel SkyProofs SkyProofs8 StrModel StrSpec StrProofs StrProofs2 ConnModel ConnSpec ConnProofs ConnProofs2.
From Coq Require Import ZifyBool ZifyNat.

Lemma axl_gen n p : 2 <= n -> 0 <= p < n -> axl n p = (if 1 <=? p then [p - 1] else []) ++ (if p <? n - 1 then [p] else []).
Proof.
  intros Hn Hp. destruct (decide (p = 0)) as [->|]; [rewrite axl_first by done; replace (0 <? n - 1) with true by lia; done|].
  replace (1 <=? p) with true by lia. destruct (decide (p = n - 1)) as [->|].
  - rewrite axl_last by done. replace (n - 1 <? n - 1) with false by lia. simpl. f_equal. lia.
  - rewrite axl_mid by lia. replace (p <? n - 1) with true by lia. done.
Qed.
Lemma cells3 n m o p q r : 2 <= n -> 2 <= m -> cells [n; m; o] [p; q; r] = (axl o r ≫= (fun y => (fun k => k + (m - 1) * y) <$> axl m q)) ≫= (fun x => (fun k => k + (n - 1) * x) <$> axl n p).
Proof. intros. rewrite cells_cons, cells2 by lia. replace (Z.max 1 (n - 1)) with (n - 1) by lia. done. Qed.
Lemma rev3_run nx ny nz (s : revst) : 2 <= nx -> 2 <= ny -> 2 <= nz ->
  forZ 0 nz (fun k s =>
    let factZ := negb (k =? 0) && negb (k =? nz - 1) in
    let offZ0 := (k - 1) * (nx - 1) * (ny - 1) in let offZ1 := k * (nx - 1) * (ny - 1) in
    forZ 0 ny (fun j s =>
      let factYZ := factZ && (negb (j =? 0) && negb (j =? ny - 1)) in
      let off00 := (j - 1) * (nx - 1) + offZ0 in let off01 := j * (nx - 1) + offZ0 in
      let off10 := (j - 1) * (nx - 1) + offZ1 in let off11 := j * (nx - 1) + offZ1 in
      forZ 0 nx (fun i s =>
        let fact := factYZ && (negb (i =? 0) && negb (i =? nx - 1)) in
        if fact then
          node [off00 + i - 1; off00 + i; off01 + i - 1; off01 + i; off10 + i - 1; off10 + i; off11 + i - 1; off11 + i] 8 s
        else
          let l := [] in
          let l := pushIf ((1 <=? k) && (1 <=? j) && (1 <=? i)) (off00 + i - 1) l in
          let l := pushIf ((1 <=? k) && (1 <=? j) && (i <? nx - 1)) (off00 + i) l in
          let l := pushIf ((1 <=? k) && (j <? ny - 1) && (1 <=? i)) (off01 + i - 1) l in
          let l := pushIf ((1 <=? k) && (j <? ny - 1) && (i <? nx - 1)) (off01 + i) l in
          let l := pushIf ((k <? nz - 1) && (1 <=? j) && (1 <=? i)) (off10 + i - 1) l in
          let l := pushIf ((k <? nz - 1) && (1 <=? j) && (i <? nx - 1)) (off10 + i) l in
          let l := pushIf ((k <? nz - 1) && (j <? ny - 1) && (1 <=? i)) (off11 + i - 1) l in
          let l := pushIf ((k <? nz - 1) && (j <? ny - 1) && (i <? nx - 1)) (off11 + i) l in
          node l (zlen l) s) s) s) s = run (packs [nx; ny; nz]) s.
Proof.
  intros Hx Hy Hz. rewrite run_cons. cbn [allpos]. rewrite !foldM_mbind_l, foldM_one, foldM_fmap_l. unfold forZ at 1. rewrite Z.sub_0_r. apply foldM_ext. intros t k Hk. apply elem_of_seqZ in Hk. cbv zeta.
  rewrite foldM_fmap_l. unfold forZ at 1. rewrite Z.sub_0_r. apply foldM_ext. intros t' j Hj. apply elem_of_seqZ in Hj.
  unfold forZ at 1. rewrite Z.sub_0_r. apply foldM_ext. intros u i Hi. apply elem_of_seqZ in Hi.
  assert (forall l l' s, l = l' -> node l (zlen l) s = nd l' s) as Hnd by (intros ? ? ? ->; done).
  destruct (negb (k =? 0) && negb (k =? nz - 1) && (negb (j =? 0) && negb (j =? ny - 1)) && (negb (i =? 0) && negb (i =? nx - 1))) eqn:E.
  - apply (Hnd [_;_;_;_;_;_;_;_]). rewrite cells3, !axl_mid by lia. rewrite !bind_cons, !fmap_cons. simpl. lists.
  - apply Hnd. rewrite cells3, !axl_gen by lia. clear E Hnd. unfold pushIf.
    destruct (1 <=? k), (k <? nz - 1), (1 <=? j), (j <? ny - 1), (1 <=? i), (i <? nx - 1); simpl; lists.
Qed.
Lemma reverse3_ok nx ny nz : 2 <= nx -> 2 <= ny -> 2 <= nz -> Reverse3 nx ny nz = Ok (rev_result [nx; ny; nz]).
Proof.
  intros Hx Hy Hz. unfold Reverse3. replace ((nx =? 0) || _ || _) with false by lia. replace ((nx =? 1) || _ || _) with false by lia. rewrite alloc1 by nia. cbn [bind].
  set (M := 8 * _ * _ * _ + _ + _ + _ + _ + 8). assert (M = total [nx; ny; nz]) as HM by (unfold M; cbn [total]; lia).
  assert (Forall (Z.le 2) [nx; ny; nz]) as H2 by (repeat constructor; done). assert (Forall (Z.le 0) [nx; ny; nz]) as H0 by (repeat constructor; lia).
  assert (0 <= M) as HM0 by (rewrite HM, <- packs_total by done; apply zlen_nonneg).
  rewrite alloc1 by done. cbn [bind]. rewrite iost_start by nia. cbn [bind].
  pose proof (rev3_run nx ny nz (malloc Z M, 0, (iost (nx * ny * nz) [], 0)) Hx Hy Hz) as H.
  rewrite run_rev in H.
  2: { rewrite packs_total by done. lia. }
  2: { rewrite packs_len by done. cbn [grid_nb]. lia. }
  match goal with |- bind ?a _ = _ => assert (a = _) as -> by exact H end. cbn [bind]. apply rev_finish.
  - rewrite packs_total by done. lia.
  - rewrite packs_len by done. cbn [grid_nb]. lia.
Qed.

(** ** Flat axes *)
Lemma packs_flat_gen (l l' : list Z) : Forall (Z.le 1) (l ++ l') ->
  exists ins : list Z -> list Z, allpos (l ++ 1 :: l') = ins <$> allpos (l ++ l') /\ forall pos, in_grid (l ++ l') pos -> cells (l ++ 1 :: l') (ins pos) = cells (l ++ l') pos.
Proof.
  induction l as [|n l IH]; intros H.
  - exists (fun h => 0 :: h). split.
    + cbn [app allpos]. change (seqZ 0 1) with [0]. generalize (allpos l') as L. induction L as [|h L IHL]; [done|]. rewrite bind_cons, IHL. done.
    + intros pos Hg. cbn [app]. rewrite cells_cons. change (axl 1 0) with [0]. generalize (cells l' pos) as L. induction L as [|h L IHL]; [done|]. rewrite bind_cons, IHL, fmap_cons. change (Z.max 1 (1 - 1)) with 1. cbn [fmap list_fmap app]. f_equal. lia.
  - cbn [app] in H. inversion H; subst. destruct (IH ltac:(done)) as (ins & Ha & Hc). exists (fun h => match h with [] => [] | p :: h => p :: ins h end). split.
    + cbn [app allpos]. rewrite Ha, fmap_bind_l. clear. generalize (allpos (l ++ l')) as L. induction L as [|h L IHL]; [done|]. rewrite fmap_cons, !bind_cons, IHL. f_equal. rewrite <- list_fmap_compose. done.
    + intros pos Hg. inversion Hg as [|? p ? h]; subst. cbn [app]. rewrite !cells_cons. rewrite Hc by done. done.
Qed.
Lemma packs_flat l l' : Forall (Z.le 1) (l ++ l') -> packs (l ++ 1 :: l') = packs (l ++ l').
Proof.
  intros H. destruct (packs_flat_gen l l' H) as (ins & Ha & Hc). unfold packs. rewrite Ha, <- list_fmap_compose. apply list_fmap_ext. intros i pos Hp. simpl. apply Hc. apply elem_of_list_lookup_2 in Hp. apply allpos_in in Hp; [done|]. eapply Forall_impl; [exact H|intros; simpl in *; lia].
Qed.
Lemma rev_flat l l' : Forall (Z.le 1) (l ++ l') -> rev_result (l ++ 1 :: l') = rev_result (l ++ l').
Proof. intros H. unfold rev_result. rewrite packs_flat by done. done. Qed.

Lemma reverse1_all n : 1 <= n -> Reverse1 n = Ok (rev_result [n]).
Proof.
  intros Hn. destruct (decide (n = 1)) as [->|]; [|apply reverse1_ok; lia]. reflexivity.
Qed.
Lemma reverse2_all nx ny : 1 <= nx -> 1 <= ny -> Reverse2 nx ny = Ok (rev_result [nx; ny]).
Proof.
  intros Hx Hy. destruct (decide (nx = 1)) as [->|]; [|destruct (decide (ny = 1)) as [->|]; [|apply reverse2_ok; lia]].
  - unfold Reverse2. replace ((1 =? 0) || _) with false by lia. change ((1 =? 1) || _) with true. cbv iota. rewrite Z.max_r by lia. rewrite reverse1_all by done. f_equal. symmetry. apply (rev_flat [] [ny]). repeat constructor; lia.
  - unfold Reverse2. replace ((nx =? 0) || _) with false by lia. replace ((nx =? 1) || _) with true by lia. rewrite Z.max_l by lia. rewrite reverse1_all by done. f_equal. symmetry. apply (rev_flat [nx] []). repeat constructor; lia.
Qed.
Lemma reverse3_all nx ny nz : 1 <= nx -> 1 <= ny -> 1 <= nz -> Reverse3 nx ny nz = Ok (rev_result [nx; ny; nz]).
Proof.
  intros Hx Hy Hz. destruct (decide (nx = 1)) as [->|Nx]; [|destruct (decide (ny = 1)) as [->|Ny]; [|destruct (decide (nz = 1)) as [->|Nz]; [|apply reverse3_ok; lia]]]; unfold Reverse3; cbn [foldM bind].
  - replace ((1 =? 0) || _ || _) with false by lia. change ((1 =? 1) || _ || _) with true. cbv iota. change (1 =? 1) with true. cbv iota. cbn [bind app]. rewrite (rd_ok [ny; nz] 0 ny), (rd_ok [ny; nz] 1 nz) by done. cbn [bind]. rewrite reverse2_all by done. f_equal. symmetry. apply (rev_flat [] [ny; nz]). repeat constructor; lia.
  - replace ((nx =? 0) || _ || _) with false by lia. replace ((nx =? 1) || _ || _) with true by lia. replace (nx =? 1) with false by lia. change (1 =? 1) with true. cbv iota. cbn [bind app]. rewrite (rd_ok [nx; nz] 0 nx), (rd_ok [nx; nz] 1 nz) by done. cbn [bind]. rewrite reverse2_all by done. f_equal. symmetry. apply (rev_flat [nx] [nz]). repeat constructor; lia.
  - replace ((nx =? 0) || _ || _) with false by lia. replace ((nx =? 1) || _ || _) with true by lia. replace (nx =? 1) with false by lia. replace (ny =? 1) with false by lia. change (1 =? 1) with true. cbv iota. cbn [bind app]. change (1 =? 1) with true. cbv iota. rewrite (rd_ok [nx; ny] 0 nx), (rd_ok [nx; ny] 1 ny) by done. cbn [bind]. rewrite reverse2_all by done. f_equal. symmetry. apply (rev_flat [nx; ny] []). repeat constructor; lia.
Qed.
Lemma reverse_all ngs : grid_ok ngs -> getReverseNodalConnectivity ngs = Ok (rev_result ngs).
Proof.
  intros [Hd H]. destruct (wp_length3 ngs Hd) as [(n & ->)|[(n & m & ->)|(n & m & o & ->)]]; repeat match goal with H : Forall _ (_ :: _) |- _ => inversion H; clear H; subst end; cbn [getReverseNodalConnectivity].
  - by apply reverse1_all.
  - by apply reverse2_all.
  - by apply reverse3_all.
Qed.

(** ** What the packs are *)
Lemma in_box_corner n p c : 0 <= p < n -> (around n p).1 <= c < (around n p).2 <-> 0 <= c < Z.max 1 (n - 1) /\ (p = c \/ p = c + 1).
Proof. intros. unfold around. simpl fst. simpl snd. lia. Qed.
Lemma cells_spec ngs pos c : Forall (Z.le 1) ngs -> in_grid ngs pos -> cells_of (cell_axes ngs) (zip_with around ngs pos) c <-> cell_around ngs pos c.
Proof.
  intros H1 Hg. unfold cells_of, cell_around. assert (forall cp, in_box (zip_with around ngs pos) cp <-> in_grid (cell_axes ngs) cp /\ corner cp pos) as Hb.
  { clear c. induction Hg as [|n p ngs pos Hp Hg IH]; intros cp.
    - split; [intros H; inversion H; subst; split; constructor|]. intros [H _]. inversion H; subst. constructor.
    - inversion H1; subst. split.
      + intros H. inversion H as [|? c ? cp' Hc Hcp]; subst. apply in_box_corner in Hc as [? ?]; [|done]. apply IH in Hcp as [? ?]; [|done]. split; constructor; done.
      + intros [H H']. inversion H as [|? c ? cp' Hc Hcp]; subst. inversion H'; subst. constructor; [by apply in_box_corner|]. apply IH; [done|]. split; done. }
  split; intros (cp & H & H').
  - apply Hb in H as [? ?]. exists cp. done.
  - destruct H' as [? ?]. exists cp. split; [apply Hb; done|done].
Qed.
Lemma reverse_spec ngs : grid_ok ngs -> exists rn rni ps, getReverseNodalConnectivity ngs = Ok (rn, rni) /\ skyline ps rn rni /\ zlen ps = grid_nb ngs /\
  forall pos, in_grid ngs pos -> exists p, ps @ grid_id ngs pos = Some p /\ enumerates (cell_around ngs pos) p.
Proof.
  intros Hok. pose proof (reverse_all _ Hok) as H. destruct Hok as [Hd H1]. exists (concat (packs ngs)), (psums (zlen <$> packs ngs)), (packs ngs). split; [done|]. split; [apply skyline_psums|].
  split; [apply packs_len; eapply Forall_impl; [exact H1|intros; simpl in *; lia]|]. intros pos Hg. exists (cells ngs pos). split.
  - unfold packs. rewrite zlook_fmap, allpos_look by done. done.
  - pose proof (box_ids_enum _ _ (around_in ngs pos H1 Hg)) as [Hi He]. split; [done|]. intros c. rewrite He. by apply cells_spec.
Qed.
