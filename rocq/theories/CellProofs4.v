(** Proofs for C62: orientation. *)
From Coq Require Import ZifyBool ZifyNat.
From Verif Require Import Base CellTable CellModel CellSpec CellProofs CellProofs2 CellProofs3.
Local Open Scope Z_scope.

(** ** The other way round *)
Lemma rev_zip {A B} (l : list A) : forall (k : list B), length l = length k -> rev (zip l k) = zip (rev l) (rev k).
Proof.
  induction l as [|x l IH]; intros [|y k] H; try done. simpl in *. rewrite IH by lia. rewrite zip_with_app; [done|]. rewrite !rev_length. lia.
Qed.
Lemma zip_swap {A B C} (f : B -> A -> C) (l : list A) : forall k : list B, (fun p => f p.2 p.1) <$> zip l k = (fun p => f p.1 p.2) <$> zip k l.
Proof. induction l as [|x l IH]; intros [|y k]; try done. simpl. f_equal. apply IH. Qed.
Lemma fmap_rev {A B} (f : A -> B) l : f <$> rev l = rev (f <$> l). Proof. exact (map_rev f l). Qed.
Lemma ring_cons a l : ring (a :: l) = (fun p => (p.1, p.2, [])) <$> zip (a :: l) (l ++ [a]). Proof. reflexivity. Qed.
Lemma ring_rev a l : ring (a :: rev l) = rev (opp <$> ring (a :: l)).
Proof.
  rewrite !ring_cons.
  replace (zip (a :: rev l) (rev l ++ [a])) with (rev (zip (l ++ [a]) (a :: l))).
  - rewrite fmap_rev. f_equal. rewrite <- list_fmap_compose. rewrite (zip_swap (fun (y x : Z) => (x, y, @nil Z)) (l ++ [a]) (a :: l)). done.
  - rewrite rev_zip by (rewrite app_length; simpl; lia). rewrite rev_app_distr. done.
Qed.

Lemma ring2_split cs ms : length cs = length ms -> ring2 (cs ++ ms) = (fun p => (p.1.1, p.1.2, [p.2])) <$> zip (zip cs (rot cs)) ms.
Proof.
  intros H. unfold ring2. rewrite app_length. replace (Nat.div2 (length cs + length ms)) with (length cs). 2: { rewrite <- H. replace (length cs + length cs)%nat with (2 * length cs)%nat by lia. by rewrite Nat.div2_double. }
  rewrite take_app, drop_app. done.
Qed.
Lemma ring2_rev a cs ms : S (length cs) = length ms -> ring2 (a :: rev cs ++ rev ms) = rev (opp <$> ring2 (a :: cs ++ ms)).
Proof.
  intros H. rewrite !app_comm_cons. rewrite !ring2_split by (simpl; rewrite ?rev_length; lia). change (rot (a :: rev cs)) with (rev cs ++ [a]). change (rot (a :: cs)) with (cs ++ [a]).
  assert (E : zip (a :: rev cs) (rev cs ++ [a]) = rev (zip (cs ++ [a]) (a :: cs))) by (rewrite rev_zip by (rewrite app_length; simpl; lia); by rewrite rev_app_distr).
  rewrite E. rewrite <- rev_zip by (rewrite zip_with_length, app_length; simpl; lia). rewrite fmap_rev. f_equal. rewrite <- list_fmap_compose.
  change (zip (a :: cs) (cs ++ [a])) with (zip (a :: cs) (cs ++ [a])). generalize (cs ++ [a]) as l, (a :: cs) as k. clear. intros l. revert ms. induction l as [|x l IH]; intros [|m ms] [|y k]; try done. simpl. f_equal. apply IH.
Qed.
Lemma copyRev_ok src n : n = zlen src -> copyRev src n = Ok (rev src).
Proof. intros ->. unfold copyRev, ubif. rewrite Z.ltb_irrefl. by rewrite Z.sub_diag. Qed.
Lemma piece_all (x : Z) l : piece (x :: l) 1 (zlen (x :: l)) = l.
Proof. unfold piece, zlen. rewrite firstn_all2; [done|]. rewrite drop_length. cbn [length]. lia. Qed.
Lemma piece_mid (a b c : list Z) : piece (a ++ b ++ c) (zlen a) (zlen a + zlen b) = b.
Proof. unfold piece, zlen. replace (Z.to_nat (Z.of_nat (length a))) with (length a) by lia. rewrite drop_app. replace (Z.to_nat _) with (length b) by lia. apply take_app. Qed.
Lemma piece_end (a b : list Z) : piece (a ++ b) (zlen a) (zlen a + zlen b) = b.
Proof. pose proof (piece_mid a b []) as H. by rewrite app_nil_r in H. Qed.

Lemma change2D_linear c a l : cm_quad c = false -> changeOrientationOf2D c (a :: l) = Ok (a :: rev l).
Proof.
  intros Hq. unfold changeOrientationOf2D. rewrite Hq. rewrite piece_all. rewrite zlen_cons. pose proof (zlen_nonneg l). destruct (1 + zlen l <? 1) eqn:?; [lia|]. cbn [negb].
  rewrite copyRev_ok by lia. done.
Qed.
Lemma change2D_quad c a cs ms : cm_quad c = true -> S (length cs) = length ms -> changeOrientationOf2D c (a :: cs ++ ms) = Ok (a :: rev cs ++ rev ms).
Proof.
  intros Hq Hl. unfold changeOrientationOf2D. rewrite Hq. cbn [negb]. rewrite zlen_cons, zlen_app. pose proof (zlen_nonneg cs). assert (E : zlen ms = 1 + zlen cs) by (unfold zlen; lia).
  destruct (1 + (zlen cs + zlen ms) <? 1) eqn:?; [lia|]. replace ((1 + (zlen cs + zlen ms)) / 2) with (zlen ms) by (rewrite E; apply Z.div_unique with 0; lia). unfold ubif. destruct (zlen ms <? 1) eqn:?; [lia|].
  rewrite (copyRev_ok (piece _ 1 _)). 2: { replace (piece (a :: cs ++ ms) 1 (zlen ms)) with cs; [lia|]. pose proof (piece_mid [a] cs ms) as P. change (zlen [a]) with 1 in P. rewrite <- E in P. by rewrite <- P at 1. }
  pose proof (piece_mid [a] cs ms) as P. change (zlen [a]) with 1 in P. rewrite <- E in P. change ([a] ++ cs ++ ms) with (a :: cs ++ ms) in P. rewrite P. cbn [bind].
  pose proof (piece_end (a :: cs) ms) as P2. rewrite zlen_cons, <- E in P2. change ((a :: cs) ++ ms) with (a :: cs ++ ms) in P2. replace (1 + (zlen cs + zlen ms)) with (zlen ms + zlen ms) by lia. rewrite P2, copyRev_ok by done. cbn [bind].
  unfold piece. rewrite (drop_ge (a :: cs ++ ms)). 2: { simpl. rewrite app_length. unfold zlen. lia. } rewrite firstn_nil, app_nil_r. done.
Qed.

Lemma shape_quad conn : shape2D true conn -> exists a cs ms, conn = a :: cs ++ ms /\ S (length cs) = length ms.
Proof.
  intros [H1 [h Hh]]. rewrite Hh in H1. rewrite Z.mul_comm, Z.div_mul in H1 by lia. destruct conn as [|a l]; [unfold zlen in Hh; simpl in Hh; lia|].
  exists a, (take (Z.to_nat (h - 1)) l), (drop (Z.to_nat (h - 1)) l). rewrite take_drop. split; [done|]. rewrite zlen_cons in Hh. rewrite take_length, drop_length. unfold zlen in Hh. lia.
Qed.
Lemma opposite_one (f g : list edge) : g ≡ₚ opp <$> f -> opposite [f] [g].
Proof. intros H. split; [done|]. split; intros x Hx; apply elem_of_list_singleton in Hx as ->; eexists; (split; [by left|]); done. Qed.
Lemma change2D_ok c conn : shape2D (cm_quad c) conn -> exists conn', changeOrientationOf2D c conn = Ok conn' /\ conn' ≡ₚ conn /\ conn' @ 0 = conn @ 0 /\
  opposite [edges2D (cm_quad c) conn] [edges2D (cm_quad c) conn'] /\ changeOrientationOf2D c conn' = Ok conn.
Proof.
  intros H. destruct (cm_quad c) eqn:Hq.
  - apply shape_quad in H as (a & cs & ms & -> & Hl). exists (a :: rev cs ++ rev ms). split; [by apply change2D_quad|]. split; [|split; [done|split]].
    + constructor. by rewrite <- !Permutation_rev.
    + apply opposite_one. simpl. rewrite ring2_rev by done. by rewrite <- Permutation_rev.
    + rewrite change2D_quad by (rewrite ?rev_length; done). by rewrite !rev_involutive.
  - destruct conn as [|a l]; [unfold shape2D, zlen in H; simpl in H; lia|]. exists (a :: rev l). split; [by apply change2D_linear|]. split; [|split; [done|split]].
    + constructor. by rewrite <- Permutation_rev.
    + apply opposite_one. simpl. rewrite ring_rev. by rewrite <- Permutation_rev.
    + rewrite change2D_linear by done. by rewrite rev_involutive.
Qed.

(** ** Polylines and segments *)
(** The edge a segment is, with its middles in the order of the ends: the second middle of a SEG4 is beyond the first one. *)
Lemma change1D_ok c a b m : cm_dyn c = false -> (length m <= 2)%nat -> changeOrientationOf1D c (edge_nodes (a, b, m)) = Ok (edge_nodes (opp (a, b, m))).
Proof. intros Hd Hm. unfold changeOrientationOf1D. rewrite Hd. destruct m as [|x [|y [|z m]]]; [done..|simpl in Hm; lia]. Qed.
Lemma change1D_throws c conn : cm_dyn c = false -> zlen conn < 2 \/ 4 < zlen conn -> changeOrientationOf1D c conn = Throw.
Proof. intros Hd Hm. unfold changeOrientationOf1D. rewrite Hd. destruct conn as [|x [|y [|z [|t [|u l]]]]]; try done; unfold zlen in Hm; simpl in Hm; lia. Qed.

(** ** OrientationInverter *)
Lemma piece_map (f : Z -> Z) l a b : piece (f <$> l) a b = f <$> piece l a b.
Proof. unfold piece. by rewrite fmap_take, fmap_drop. Qed.
Lemma reverseIn_map (f : Z -> Z) a b l : reverseIn a b (f <$> l) = rmap (fmap f) (reverseIn a b l).
Proof. unfold reverseIn, ubif. rewrite zlen_fmap. destruct (_ || _); [done|]. simpl. f_equal. rewrite !fmap_app, fmap_rev, piece_map, fmap_take, fmap_drop. done. Qed.
Lemma rd_map (f : Z -> Z) l i : rd (f <$> l) i = rmap f (rd l i).
Proof. unfold rd. rewrite zlook_fmap. by destruct (l @ i). Qed.
Lemma wr_map (f : Z -> Z) l i x : wr (f <$> l) i (f x) = rmap (fmap f) (wr l i x).
Proof. unfold wr. rewrite zlen_fmap. destruct (_ && _); [|done]. simpl. unfold zset. by rewrite list_fmap_insert. Qed.

Definition nat_op (op : list Z -> res (list Z)) : Prop := forall (f : Z -> Z) l, op (f <$> l) = rmap (fmap f) (op l).
Lemma nat_bind p q : nat_op p -> nat_op q -> nat_op (fun l => let* l := p l in q l).
Proof. intros Hp Hq f l. rewrite Hp. destruct (p l) as [x| | |]; simpl; [apply Hq|done..]. Qed.
Lemma nat_swap a b : nat_op (swapIn a b).
Proof.
  intros f l. unfold swapIn. rewrite !rd_map. destruct (rd l a) as [x| | |]; simpl; try done. destruct (rd l b) as [y| | |]; simpl; try done. rewrite wr_map. destruct (wr l a y) as [k| | |]; simpl; try done. apply wr_map.
Qed.
Lemma nat_checked n op : nat_op op -> nat_op (fun l => checked n l op).
Proof. intros H f l. unfold checked, ifthrow. rewrite zlen_fmap. destruct (negb _); [done|]. apply H. Qed.
Lemma nat_rev a b : nat_op (reverseIn a b). Proof. intros f l. apply reverseIn_map. Qed.
Lemma nat_invert gt : nat_op (invertOrientation gt).
Proof.
  intros f l. unfold invertOrientation. rewrite !zlen_fmap.
  assert (L : forall n, nat_op (fun l => checked n l (reverseIn 1 n))) by (intros; apply nat_checked, nat_rev).
  repeat lazymatch goal with |- (if ?b then _ else _) = _ => destruct b end.
  all: lazymatch goal with
  | |- checked ?n (_ <$> _) ?op = rmap _ (checked ?n _ ?op) => refine (nat_checked n op _ f l); repeat first [apply nat_swap|apply nat_rev|apply nat_bind]
  | |- _ => idtac end.
  - apply nat_rev.
  - refine (nat_bind (reverseIn 1 (zlen l / 2)) (reverseIn (zlen l / 2) (zlen l)) _ _ f l); apply nat_rev.
  - done.
Qed.

Definition oppositeb (b b' : list (list edge)) : bool :=
  (length b =? length b')%nat && forallb (fun f => existsb (fun f' => bool_decide (f' ≡ₚ opp <$> f)) b') b && forallb (fun f' => existsb (fun f => bool_decide (f' ≡ₚ opp <$> f)) b) b'.
Lemma oppositeb_ok b b' : oppositeb b b' = true -> opposite b b'.
Proof.
  unfold oppositeb. intros H. apply andb_true_iff in H as [H H3]. apply andb_true_iff in H as [H1 H2]. split; [by apply Nat.eqb_eq|]. split; intros f Hf.
  - pose proof (forallb_elem _ _ _ H2 Hf) as H. apply existsb_exists in H as (g & Hg & H). exists g. split; [by apply elem_of_list_In|]. by apply bool_decide_eq_true in H.
  - pose proof (forallb_elem _ _ _ H3 Hf) as H. apply existsb_exists in H as (g & Hg & H). exists g. split; [by apply elem_of_list_In|]. by apply bool_decide_eq_true in H.
Qed.
Lemma opposite_map (f : Z -> Z) b b' : opposite b b' -> opposite ((fun l : list edge => mapE f <$> l) <$> b) ((fun l : list edge => mapE f <$> l) <$> b').
Proof.
  assert (E : forall l k, k ≡ₚ opp <$> l -> mapE f <$> k ≡ₚ opp <$> (mapE f <$> l)).
  { intros l k H. rewrite H. enough (mapE f <$> (opp <$> l) = opp <$> (mapE f <$> l)) as -> by done. rewrite <- !list_fmap_compose. apply list_fmap_ext. intros i x _. simpl. by rewrite opp_map. }
  intros (H1 & H2 & H3). split; [by rewrite !fmap_length|]. split; intros g Hg; apply elem_of_list_fmap in Hg as (x & -> & Hx).
  - destruct (H2 x Hx) as (y & Hy & Hp). exists (mapE f <$> y). split; [by apply (elem_of_list_fmap_1 (fun l : list edge => mapE f <$> l))|by apply E].
  - destruct (H3 x Hx) as (y & Hy & Hp). exists (mapE f <$> y). split; [by apply (elem_of_list_fmap_1 (fun l : list edge => mapE f <$> l))|by apply E].
Qed.

Definition bordersOf (c : cm) (l : list Z) : list (list edge) := if cm_dim c =? 2 then [edges2D (cm_quad c) l] else fsOf ((fun s : Z * list Z => (s.1, at_ l <$> s.2)) <$> cm_sons c).
Definition invb (c : cm) : bool := if negb (bool_decide (cm_type c ∈ inverted)) then true else
  negb (cm_dyn c) && match invertOrientation (cm_type c) (seqZ 0 (cm_nbpts c)) with
  | Ok p => forallb (inb (cm_nbpts c)) p && (zlen p =? cm_nbpts c) && match invertOrientation (cm_type c) p with Ok q => bool_decide (q = seqZ 0 (cm_nbpts c)) | _ => false end && bool_decide (p ≡ₚ seqZ 0 (cm_nbpts c)) && oppositeb (bordersOf c (seqZ 0 (cm_nbpts c))) (bordersOf c p)
  | _ => false end && ((cm_dim c =? 2) || (cm_dim c =? 3)).
Lemma models_inv : forallb invb models = true. Proof. vm_compute. done. Qed.
Lemma bordersOf_map c (f : Z -> Z) p : (forall s, s ∈ cm_sons c -> Forall (fun i => 0 <= i < zlen p) s.2) -> bordersOf c (f <$> p) = (fun l : list edge => mapE f <$> l) <$> bordersOf c p.
Proof.
  intros H. unfold bordersOf. destruct (cm_dim c =? 2); [by rewrite edges2D_map|]. unfold fsOf. rewrite <- !list_fmap_compose. apply list_fmap_ext. intros i s Hs. simpl.
  assert (Hin : s ∈ cm_sons c) by (by eapply elem_of_list_lookup_2). rewrite <- edges2D_map. f_equal. rewrite <- list_fmap_compose. apply list_fmap_ext. intros j x Hx. simpl.
  pose proof (proj1 (Forall_forall _ _) (H s Hin) x (elem_of_list_lookup_2 _ _ _ Hx)) as Hb. unfold at_. rewrite zlook_fmap. destruct (zlook_lt p x Hb) as [y ->]. done.
Qed.
Lemma invert_ok c conn : c ∈ models -> cm_type c ∈ inverted -> zlen conn = cm_nbpts c ->
  exists conn', invertOrientation (cm_type c) conn = Ok conn' /\ conn' ≡ₚ conn /\ opposite (bordersOf c conn) (bordersOf c conn') /\ invertOrientation (cm_type c) conn' = Ok conn.
Proof.
  intros Hc Ht Hl. pose proof (forallb_elem _ _ _ models_inv Hc) as H. unfold invb in H. rewrite (bool_decide_eq_true_2 _ Ht) in H. cbn [negb] in H.
  apply andb_true_iff in H as [H H23]. apply andb_true_iff in H as [Hd H]. destruct (invertOrientation (cm_type c) (seqZ 0 (cm_nbpts c))) as [p| | |] eqn:Ep; try done.
  apply andb_true_iff in H as [H Ho]. apply andb_true_iff in H as [H Hp]. apply andb_true_iff in H as [H Hq]. apply andb_true_iff in H as [Hi Hz]. apply bool_decide_eq_true in Hp. apply oppositeb_ok in Ho.
  destruct (invertOrientation (cm_type c) p) as [q| | |] eqn:Eq; try done. apply bool_decide_eq_true in Hq as ->. apply Z.eqb_eq in Hz.
  assert (HS : forall n s, n = cm_nbpts c -> cm_dim c <> 2 -> s ∈ cm_sons c -> Forall (fun i => 0 <= i < n) s.2).
  { intros n s -> H2 Hs. pose proof (forallb_elem _ _ _ models_static Hc) as H. unfold staticb in H. apply negb_true_iff in Hd. rewrite Hd in H. assert (H3 : cm_dim c = 3) by lia. rewrite H3 in H. simpl in H.
    apply andb_true_iff in H as [H _]. apply andb_true_iff in H as [H _]. apply andb_true_iff in H as [_ HS]. pose proof (forallb_elem _ _ _ HS Hs) as H. simpl in H. apply andb_true_iff in H as [H _]. apply Forall_forall. intros i Hi'. pose proof (forallb_elem _ _ _ H Hi'). unfold inb in *. lia. }
  assert (Hm : forall l, zlen l = cm_nbpts c -> bordersOf c (at_ conn <$> l) = (fun x : list edge => mapE (at_ conn) <$> x) <$> bordersOf c l).
  { intros l Hlen. destruct (decide (cm_dim c = 2)) as [H2|H2]; [unfold bordersOf; rewrite H2; simpl; by rewrite edges2D_map|]. apply bordersOf_map. intros s Hs. by apply HS. }
  pose proof (at_seq conn) as Es. rewrite Hl in Es. assert (Hsl : zlen (seqZ 0 (cm_nbpts c)) = cm_nbpts c) by (unfold zlen in *; rewrite seqZ_length; lia).
  exists (at_ conn <$> p). split; [|split; [|split]].
  - rewrite Es at 1. rewrite nat_invert, Ep. done.
  - rewrite Es at 2. by rewrite Hp.
  - rewrite Es at 1. rewrite !Hm by done. by apply opposite_map.
  - rewrite nat_invert, Eq. simpl. by rewrite <- Es.
Qed.
Lemma borders_3D c conn sons fs : c ∈ models -> cm_dyn c = false -> cm_dim c = 3 -> zlen conn = cm_nbpts c ->
  zlen sons = getNumberOfSons2 c conn -> (forall k s, sons @ k = Some s -> fillSon2 c k conn = Ok s) -> are_faces sons fs -> fs = bordersOf c conn.
Proof.
  intros Hc Hd H3 Hl Hn Hs HF. rewrite (sons_canon c conn sons fs) by done. unfold bordersOf. rewrite H3. simpl. unfold fsOf. rewrite <- !list_fmap_compose. apply list_fmap_ext. intros i s _. simpl. by rewrite edges2D_map.
Qed.
Lemma inverted_static c : c ∈ models -> cm_type c ∈ inverted -> cm_dyn c = false.
Proof. intros Hc Ht. pose proof (forallb_elem _ _ _ models_inv Hc) as H. unfold invb in H. rewrite (bool_decide_eq_true_2 _ Ht) in H. cbn [negb] in H. apply andb_true_iff in H as [H _]. apply andb_true_iff in H as [Hd _]. by apply negb_true_iff in Hd. Qed.

(** Polygons *)
Lemma reverse_all a l : reverseIn 1 (zlen (a :: l)) (a :: l) = Ok (a :: rev l).
Proof.
  unfold reverseIn, ubif. rewrite piece_all. rewrite zlen_cons. pose proof (zlen_nonneg l). destruct (_ || _) eqn:?; [lia|]. rewrite (drop_ge (a :: l)); [|simpl; unfold zlen; lia]. by rewrite app_nil_r.
Qed.
Lemma invert_polygon conn : 1 <= zlen conn -> exists conn', invertOrientation NORM_POLYGON conn = Ok conn' /\ conn' ≡ₚ conn /\ opposite [edges2D false conn] [edges2D false conn'] /\ invertOrientation NORM_POLYGON conn' = Ok conn.
Proof.
  intros H. destruct conn as [|a l]; [unfold zlen in H; simpl in H; lia|]. exists (a :: rev l). unfold invertOrientation. simpl (NORM_POLYGON =? _). cbn [orb]. cbv iota. rewrite !reverse_all. split; [done|]. split; [constructor; by rewrite <- Permutation_rev|]. split; [|by rewrite rev_involutive].
  apply opposite_one. simpl. rewrite ring_rev. by rewrite <- Permutation_rev.
Qed.
Lemma reverse_quad a cs ms : S (length cs) = length ms -> (let* l := reverseIn 1 (zlen (a :: cs ++ ms) / 2) (a :: cs ++ ms) in reverseIn (zlen (a :: cs ++ ms) / 2) (zlen (a :: cs ++ ms)) l) = Ok (a :: rev cs ++ rev ms).
Proof.
  intros Hl. assert (E : zlen ms = 1 + zlen cs) by (unfold zlen; lia). pose proof (zlen_nonneg cs). rewrite zlen_cons, zlen_app. replace ((1 + (zlen cs + zlen ms)) / 2) with (zlen ms) by (rewrite E; apply Z.div_unique with 0; lia).
  unfold reverseIn at 1, ubif. rewrite zlen_cons, zlen_app. destruct (_ || _) eqn:?; [lia|]. cbn [bind].
  pose proof (piece_mid [a] cs ms) as P. change (zlen [a]) with 1 in P. rewrite <- E in P. change ([a] ++ cs ++ ms) with (a :: cs ++ ms) in P. rewrite P.
  replace (drop (Z.to_nat (zlen ms)) (a :: cs ++ ms)) with ms. 2: { replace (Z.to_nat (zlen ms)) with (S (length cs)) by (unfold zlen; lia). simpl. by rewrite drop_app. }
  change (take (Z.to_nat 1) (a :: cs ++ ms) ++ rev cs ++ ms) with (a :: rev cs ++ ms).
  unfold reverseIn, ubif. rewrite zlen_cons, zlen_app. replace (zlen (rev cs)) with (zlen cs) by (unfold zlen; by rewrite rev_length). lazymatch goal with |- (if ?b then _ else _) = _ => destruct b eqn:Eb; [lia|] end.
  pose proof (piece_end (a :: rev cs) ms) as P2. rewrite zlen_cons in P2. replace (zlen (rev cs)) with (zlen cs) in P2 by (unfold zlen; by rewrite rev_length). rewrite <- E in P2. change ((a :: rev cs) ++ ms) with (a :: rev cs ++ ms) in P2. replace (1 + (zlen cs + zlen ms)) with (zlen ms + zlen ms) by lia. rewrite P2.
  rewrite (drop_ge (a :: _)); [|simpl; rewrite app_length, rev_length; unfold zlen; lia]. rewrite app_nil_r. f_equal. replace (Z.to_nat (zlen ms)) with (S (length (rev cs))) by (unfold zlen; rewrite rev_length; lia). simpl. by rewrite take_app.
Qed.
Lemma invert_qpolyg conn : shape2D true conn -> exists conn', invertOrientation NORM_QPOLYG conn = Ok conn' /\ conn' ≡ₚ conn /\ opposite [edges2D true conn] [edges2D true conn'] /\ invertOrientation NORM_QPOLYG conn' = Ok conn.
Proof.
  intros H. apply shape_quad in H as (a & cs & ms & -> & Hl). exists (a :: rev cs ++ rev ms). unfold invertOrientation. simpl (NORM_QPOLYG =? _). cbv iota. split; [exact (reverse_quad a cs ms Hl)|]. split; [constructor; by rewrite <- !Permutation_rev|]. split; [apply opposite_one; simpl; rewrite ring2_rev by done; by rewrite <- Permutation_rev|].
  etransitivity; [exact (reverse_quad a (rev cs) (rev ms) ltac:(by rewrite !rev_length))|]. by rewrite !rev_involutive.
Qed.

(** A connectivity of another length, or a type that is not managed *)
Lemma invert_throws c conn : c ∈ models -> cm_type c ∈ NORM_SEG2 :: NORM_SEG3 :: inverted -> zlen conn <> cm_nbpts c -> invertOrientation (cm_type c) conn = Throw.
Proof.
  intros Hc Ht Hl. assert (H : forall n op, n = cm_nbpts c -> checked n conn op = Throw) by (intros n op ->; unfold checked, ifthrow; destruct (zlen conn =? cm_nbpts c) eqn:?; [lia|done]).
  unfold models in Hc. repeat (apply elem_of_cons in Hc as [->|Hc]; [first [exfalso; clear -Ht; abstract (vm_compute in Ht; repeat (apply elem_of_cons in Ht as [Ht|Ht]; [discriminate|]); by apply elem_of_nil in Ht)|unfold invertOrientation; cbn -[checked reverseIn swapIn]; by rewrite H]|]). by apply elem_of_nil in Hc.
Qed.
Lemma invert_unknown gt conn : gt ∉ NORM_SEG2 :: NORM_SEG3 :: NORM_POLYGON :: NORM_QPOLYG :: inverted -> invertOrientation gt conn = Throw.
Proof.
  intros Ht. unfold inverted in Ht. repeat (apply not_elem_of_cons in Ht as [? Ht]). unfold invertOrientation. repeat match goal with |- (if gt =? ?t then _ else _) = _ => rewrite (proj2 (Z.eqb_neq gt t)) by done end. done.
Qed.
Lemma invert_seg2 a b : invertOrientation NORM_SEG2 [a; b] = Ok [b; a]. Proof. reflexivity. Qed.

(** ** Orientation status *)
Lemma isPrefix_spec pat l : isPrefix pat l = true <-> take (length pat) l = pat.
Proof. unfold isPrefix. by rewrite bool_decide_eq_true. Qed.
Lemma search_spec pat : pat <> [] -> forall l, (exists k, (k < length l)%nat /\ search l pat = Z.of_nat k /\ take (length pat) (drop k l) = pat) \/ (search l pat = zlen l /\ forall k, take (length pat) (drop k l) <> pat).
Proof.
  intros Hne. induction l as [|x l IH]; simpl.
  - destruct (isPrefix pat []) eqn:E; [apply isPrefix_spec in E; rewrite firstn_nil in E; congruence|]. right. split; [done|]. intros k. rewrite drop_nil, firstn_nil. congruence.
  - destruct (isPrefix pat (x :: l)) eqn:E.
    + left. exists 0%nat. split; [lia|]. split; [done|]. by apply isPrefix_spec.
    + assert (E' : take (length pat) (x :: l) <> pat) by (rewrite <- isPrefix_spec; congruence). destruct IH as [(k & Hk & Hs & Hp)|[Hs Hn]].
      * left. exists (S k). split; [lia|]. split; [lia|]. done.
      * right. split; [rewrite zlen_cons; lia|]. intros [|k]; [done|]. apply Hn.
Qed.
Lemma take_twice (l : list Z) k : (k <= length l)%nat -> take (length l) (drop k (l ++ l)) = drop k l ++ take k l.
Proof.
  intros H. rewrite drop_app_le by done. rewrite (take_app_ge (drop k l)) by (rewrite drop_length; lia). f_equal. f_equal. rewrite drop_length. lia.
Qed.
Lemma prefix_twice (l pat : list Z) : pat <> [] -> length pat = length l -> (exists k, take (length pat) (drop k (l ++ l)) = pat) <-> rotation l pat.
Proof.
  intros Hne H. split.
  - intros [k Hk]. assert (Hle : (k <= length l)%nat). { assert (HL : length (take (length pat) (drop k (l ++ l))) = length pat) by (by rewrite Hk). rewrite take_length, drop_length, app_length in HL. assert (0 < length pat)%nat by (destruct pat; [done|simpl; lia]). lia. }
    exists k. split; [done|]. rewrite <- take_twice by done. by rewrite <- H.
  - intros (k & Hk & ->). exists k. rewrite H. by apply take_twice.
Qed.
Lemma status_ok c conn1 conn2 : cm_quad c = false -> cm_dim c = 1 \/ cm_dim c = 2 -> zlen conn1 = zlen conn2 ->
  (getOrientationStatus c conn1 conn2 = Ok true <-> if cm_dim c =? 2 then rotation conn1 conn2 else conn1 = conn2) /\
  (getOrientationStatus c conn1 conn2 = Ok false <-> (if cm_dim c =? 2 then ~ rotation conn1 conn2 /\ rotation (rev conn1) conn2 else conn1 <> conn2 /\ (rotation conn1 conn2 \/ rotation (rev conn1) conn2))) /\
  (getOrientationStatus c conn1 conn2 = Throw <-> ~ rotation conn1 conn2 /\ ~ rotation (rev conn1) conn2).
Proof.
  intros Hq Hd Hl. assert (HL : length conn2 = length conn1) by (unfold zlen in Hl; lia). unfold getOrientationStatus. rewrite Hq. cbn [negb]. unfold ifthrow. destruct (negb ((cm_dim c =? 1) || (cm_dim c =? 2))) eqn:?; [lia|].
  assert (R0 : rotation conn1 conn1) by (exists 0%nat; split; [lia|simpl; by rewrite app_nil_r]).
  destruct (decide (conn2 = [])) as [->|Hne].
  { destruct conn1; [|simpl in HL; lia]. simpl. destruct (cm_dim c =? 2) eqn:?; split; [|split| |split]; (split; intros H; try done); try (destruct H as [H1 H2]; done). }
  assert (HR : length conn2 = length (rev conn1)) by (rewrite rev_length; lia).
  rewrite rev_app_distr.
  destruct (search_spec conn2 Hne (conn1 ++ conn1)) as [(k & Hk & Hs & Hp)|[Hs Hn]]; rewrite Hs.
  - assert (Hrot : rotation conn1 conn2) by (apply prefix_twice; [done|done|by exists k]).
    destruct (Z.of_nat k =? 0) eqn:E0.
    + assert (k = 0%nat) as -> by lia. assert (conn1 = conn2) as <-. { rewrite <- Hp. rewrite HL. rewrite take_twice by lia. simpl. by rewrite app_nil_r. }
      destruct (cm_dim c =? 2) eqn:?; split; [|split| |split]; (split; intros H; try done); destruct H as [H1 H2]; done.
    + destruct (Z.of_nat k =? zlen (conn1 ++ conn1)) eqn:E1; [unfold zlen in E1; lia|]. cbn [negb].
      destruct (cm_dim c =? 2) eqn:E2.
      * replace (negb (cm_dim c =? 1)) with true by lia. split; [|split]; (split; intros H; try done); destruct H as [H1 H2]; done.
      * replace (negb (cm_dim c =? 1)) with false by lia. assert (Hneq : conn1 <> conn2).
        { intros <-. enough (search (conn1 ++ conn1) conn1 = 0) by lia. destruct conn1 as [|x l]; [done|]. simpl. assert (isPrefix (x :: l) (x :: l ++ x :: l) = true) as ->; [|done]. apply isPrefix_spec. simpl. by rewrite take_app. }
        split; [|split]; (split; intros H; try done); try (destruct H as [H1 H2]; done). split; [done|by left].
  - assert (Hrot : ~ rotation conn1 conn2) by (intros Hr; apply prefix_twice in Hr as [k Hr]; [by apply (Hn k)|done|done]).
    assert (Hneq : conn1 <> conn2) by (intros <-; done).
    assert (Hz : 0 < zlen (conn1 ++ conn1)) by (rewrite zlen_app; unfold zlen; destruct conn2; [done|simpl in HL; lia]).
    destruct (zlen (conn1 ++ conn1) =? 0) eqn:?; [lia|]. rewrite Z.eqb_refl. cbn [negb].
    assert (Hrl : zlen (conn1 ++ conn1) = zlen (rev conn1 ++ rev conn1)) by (rewrite !zlen_app; unfold zlen; by rewrite rev_length).
    destruct (search_spec conn2 Hne (rev conn1 ++ rev conn1)) as [(k & Hk & Hs' & Hp)|[Hs' Hn']]; rewrite Hs'.
    + assert (Hrot' : rotation (rev conn1) conn2) by (apply prefix_twice; [done|done|by exists k]). destruct (Z.of_nat k =? zlen (conn1 ++ conn1)) eqn:E1; [unfold zlen in *; lia|]. cbn [negb].
      destruct (cm_dim c =? 2); split; [|split| |split]; (split; intros H; try done); try (destruct H as [H1 H2]; done). split; [done|by right].
    + assert (Hrot' : ~ rotation (rev conn1) conn2) by (intros Hr; apply prefix_twice in Hr as [k Hr]; [by apply (Hn' k)|done|done]). rewrite <- Hrl, Z.eqb_refl. cbn [negb].
      destruct (cm_dim c =? 2); split; [|split| |split]; (split; intros H; try done); try (destruct H as [H1 H2]; done). destruct H as [_ [H|H]]; done.
Qed.

Lemma borders_canon c conn b : c ∈ models -> cm_dyn c = false -> cm_dim c = 2 \/ cm_dim c = 3 -> zlen conn = cm_nbpts c -> borders c conn b -> b = bordersOf c conn.
Proof.
  intros Hc Hd H23 Hl Hb. unfold borders in Hb. destruct (cm_dim c =? 2) eqn:E; [unfold bordersOf; by rewrite E|]. destruct Hb as (sons & H1 & H2 & H3). eapply borders_3D; try done. lia.
Qed.
Lemma invert_static c conn : c ∈ models -> cm_type c ∈ inverted -> zlen conn = cm_nbpts c ->
  exists conn', invertOrientation (cm_type c) conn = Ok conn' /\ conn' ≡ₚ conn /\ (forall b b', borders c conn b -> borders c conn' b' -> opposite b b') /\ invertOrientation (cm_type c) conn' = Ok conn.
Proof.
  intros Hc Ht Hl. destruct (invert_ok c conn Hc Ht Hl) as (conn' & H1 & H2 & H3 & H4). exists conn'. split; [done|]. split; [done|]. split; [|done].
  assert (H23 : cm_dim c = 2 \/ cm_dim c = 3). { pose proof (forallb_elem _ _ _ models_inv Hc) as H. unfold invb in H. rewrite (bool_decide_eq_true_2 _ Ht) in H. cbn [negb] in H. apply andb_true_iff in H as [_ H]. lia. }
  pose proof (inverted_static c Hc Ht) as Hd. assert (Hl' : zlen conn' = cm_nbpts c) by (unfold zlen in *; by rewrite H2).
  intros b b' Hb Hb'. apply borders_canon in Hb as ->; [|done..]. apply borders_canon in Hb' as ->; done.
Qed.
