(** Lemmas on prefix sums, sub-lists and buffers filled from their beginning. *)
From Verif Require Import Base DataArray ArrLib SlicesSpec SlicesModel SlicesProofs RenumProofs IndexSpec.
From Coq Require Import ZifyBool ZifyNat.

Lemma zsum_app l k : zsum (l ++ k) = zsum l + zsum k.
Proof. induction l as [|x l IH]; simpl; [done|]. unfold zsum in *. simpl. rewrite IH. lia. Qed.
Lemma zsum_snoc l x : zsum (l ++ [x]) = zsum l + x.
Proof. rewrite zsum_app. unfold zsum; simpl. lia. Qed.
Lemma zsum_foldl l : foldl Z.add 0 l = zsum l.
Proof.
  assert (H : forall s, foldl Z.add s l = s + zsum l); [|rewrite H; lia].
  induction l as [|x l IH]; intros s; simpl; [unfold zsum; simpl; lia|]. rewrite IH. unfold zsum; simpl. lia.
Qed.
Lemma zsum_take_succ l i v : l @ i = Some v -> zsum (take (Z.to_nat (i + 1)) l) = zsum (take (Z.to_nat i) l) + v.
Proof. intros H. rewrite (take_succ l i v H). apply zsum_snoc. Qed.
Lemma zsum_nonneg l : (forall v, v ∈ l -> 0 <= v) -> 0 <= zsum l.
Proof.
  induction l as [|x l IH]; intros H; [unfold zsum; simpl; lia|]. change (zsum (x :: l)) with (x + zsum l).
  pose proof (H x ltac:(left)). assert (0 <= zsum l) by (apply IH; intros; apply H; by right). lia.
Qed.
Lemma zlen_concat {A} (ps : list (list A)) : zlen (concat ps) = zsum (zlen <$> ps).
Proof. induction ps as [|p ps IH]; [done|]. simpl. rewrite zlen_app, IH. done. Qed.
Lemma concat_snoc {A} (ps : list (list A)) p : concat (ps ++ [p]) = concat ps ++ p.
Proof. rewrite concat_app. simpl. rewrite app_nil_r. done. Qed.

Lemma psums_nil : prefix_sums [] [0].
Proof. split; [done|]. intros i Hi. change (zlen (@nil Z)) with 0 in Hi. assert (i = 0) as -> by lia. done. Qed.
Lemma psums_snoc l r x : prefix_sums l r -> prefix_sums (l ++ [x]) (r ++ [zsum l + x]).
Proof.
  intros [Hl Hr]. split; [rewrite !zlen_app; unfold zlen in *; simpl; lia|]. intros i Hi. rewrite zlen_app in Hi. change (zlen [x]) with 1 in Hi.
  destruct (decide (i <= zlen l)).
  - rewrite zlook_app_l by lia. rewrite Hr by lia. f_equal. f_equal. rewrite take_app_le by (unfold zlen in *; lia). done.
  - assert (i = zlen r) as -> by lia. rewrite zlook_snoc. f_equal. rewrite take_ge by (rewrite app_length; unfold zlen in *; simpl; lia).
    rewrite zsum_snoc. done.
Qed.
Lemma psums_last l r : prefix_sums l r -> r @ (zlen l) = Some (zsum l).
Proof. intros [Hl Hr]. rewrite Hr by (pose proof (zlen_nonneg l); lia). rewrite take_ge by (unfold zlen; lia). done. Qed.
Lemma psums_unique l r r' : prefix_sums l r -> prefix_sums l r' -> r = r'.
Proof. intros [Hl Hr] [Hl' Hr']. apply zlook_ext_lt; [lia|]. intros i Hi. rewrite Hr, Hr' by lia. done. Qed.
Lemma psums_delta l r i v : prefix_sums l r -> l @ i = Some v -> exists a, r @ i = Some a /\ r @ (i + 1) = Some (a + v).
Proof.
  intros [Hl Hr] Hv. apply zlook_Some_lt in Hv as ?. exists (zsum (take (Z.to_nat i) l)). rewrite !Hr by lia. split; [done|].
  rewrite (zsum_take_succ l i v Hv). done.
Qed.

Lemma zlen_sub {A} (l : list A) a b : 0 <= a -> a <= b -> b <= zlen l -> zlen (sub l a b) = b - a.
Proof. intros. unfold sub. rewrite zlen_take, zlen_drop. lia. Qed.
Lemma zlook_sub {A} (l : list A) a b i : 0 <= a -> 0 <= i < b - a -> sub l a b @ i = l @ (a + i).
Proof. intros. unfold sub. rewrite zlook_take by lia. rewrite zlook_drop by lia. f_equal. lia. Qed.
Lemma sub_full {A} (l : list A) : sub l 0 (zlen l) = l.
Proof. unfold sub. rewrite take_ge; [done|]. unfold zlen. rewrite drop_length. lia. Qed.
Lemma sub_empty {A} (l : list A) a b : b <= a -> sub l a b = [].
Proof. intros. unfold sub. replace (Z.to_nat (b - a)) with 0%nat by lia. done. Qed.
Lemma sub_app {A} (l : list A) a b c : 0 <= a -> a <= b -> b <= c -> c <= zlen l -> sub l a b ++ sub l b c = sub l a c.
Proof.
  intros. apply zlook_ext_lt; [rewrite zlen_app, !zlen_sub; lia|]. intros i Hi. rewrite zlen_app, !zlen_sub in Hi by lia.
  rewrite (zlook_sub l a c) by lia. rewrite zlook_app. rewrite zlen_sub by lia. destruct (Z.ltb_spec i (b - a)).
  - rewrite zlook_sub by lia. done.
  - rewrite zlook_sub by lia. f_equal. lia.
Qed.
Lemma sub_snoc {A} (l : list A) a b v : 0 <= a -> a <= b -> l @ b = Some v -> sub l a (b + 1) = sub l a b ++ [v].
Proof.
  intros. apply zlook_Some_lt in H1 as ?. rewrite <- (sub_app l a b (b+1)) by lia. f_equal. apply zlook_ext_lt.
  - rewrite zlen_sub by lia. unfold zlen; simpl; lia.
  - intros i Hi. rewrite zlen_sub in Hi by lia. rewrite zlook_sub by lia. assert (i = 0) as -> by lia. rewrite Z.add_0_r, H1. done.
Qed.
Lemma elem_of_sub {A} (l : list A) a b x : 0 <= a -> b <= zlen l -> x ∈ sub l a b <-> exists i, a <= i < b /\ l @ i = Some x.
Proof.
  intros Ha Hb. rewrite elem_of_zlook. split.
  - intros [i Hi]. apply zlook_Some_lt in Hi as Hi2. destruct (Z.le_gt_cases a b); [|rewrite sub_empty in Hi2 by lia; unfold zlen in Hi2; simpl in Hi2; lia].
    rewrite zlen_sub in Hi2 by lia. rewrite zlook_sub in Hi by lia. exists (a + i). split; [lia|done].
  - intros (i & Hi & Hx). exists (i - a). rewrite zlook_sub by lia. rewrite <- Hx. f_equal. lia.
Qed.

(** Copy of [src[a..b)] right after the filled part. *)
Lemma wp_fill_copy {A} (src : list A) a b (k : list A) m p (Q : list (option A) -> Prop) (T : Prop) :
  0 <= a -> a <= b -> b <= zlen src -> b - a <= m -> p = zlen k ->
  Q ((Some <$> (k ++ sub src a b)) ++ malloc A (m - (b - a))) -> wp (copyc src a b ((Some <$> k) ++ malloc A m) p) Q T.
Proof.
  intros Ha Hab Hb Hm -> HQ. pose proof (zlen_nonneg k). apply wp_copyc; try lia; [rewrite fill_len; lia|].
  intros dst' Hl Hd. rewrite fill_len in Hl by lia. replace dst' with ((Some <$> k ++ sub src a b) ++ malloc A (m - (b - a))); [done|].
  apply zlook_ext_lt; [rewrite fill_len by lia; rewrite zlen_app, zlen_sub by lia; lia|].
  intros i Hi. rewrite fill_len in Hi by lia. rewrite zlen_app, zlen_sub in Hi by lia. rewrite Hd. rewrite fmap_app, <- app_assoc.
  destruct (Z.leb_spec (zlen k) i); simpl.
  - rewrite zlook_app_r by (rewrite zlen_fmap; lia). rewrite zlen_fmap. rewrite zlook_app, zlen_fmap, zlen_sub by lia.
    destruct (Z.ltb_spec i (zlen k + (b - a))).
    + replace (i - zlen k <? b - a) with true by lia. rewrite zlook_fmap, zlook_sub by lia. done.
    + replace (i - zlen k <? b - a) with false by lia. rewrite zlook_malloc by lia.
      rewrite zlook_app_r by (rewrite zlen_fmap; lia). rewrite zlen_fmap, zlook_malloc by lia. done.
  - rewrite !zlook_app_l by (rewrite zlen_fmap; lia). done.
Qed.
Lemma fill_done {A} (k : list A) m : m = 0 -> (Some <$> k) ++ malloc A m = Some <$> k.
Proof. intros ->. rewrite malloc_0, app_nil_r. done. Qed.
Lemma fill_start {A} m : malloc A m = (Some <$> []) ++ malloc A m.
Proof. done. Qed.
Lemma rdc_fill {A} (k : list A) m i x : k @ i = Some x -> rdc ((Some <$> k) ++ malloc A m) i = Ok x.
Proof. intros H. apply rdc_ok. apply zlook_Some_lt in H as ?. rewrite zlook_app_l by (rewrite zlen_fmap; lia). rewrite zlook_fmap, H. done. Qed.

(** A loop that carries an id increased by [step] at each turn is a loop over the ids. *)
Definition arith (a step n : Z) : list Z := (fun k => a + k * step) <$> seqZ 0 n.
Lemma forZ_arith {S} (f : S -> Z -> res S) (body : Z -> S * Z -> res (S * Z)) a step n s :
  (forall i s id, body i (s, id) = let* s' := f s id in Ok (s', id + step)) -> 0 <= n ->
  forZ 0 n body (s, a) = let* s' := foldM f (arith a step n) s in Ok (s', a + n * step).
Proof.
  intros Hb Hn. unfold forZ, arith. rewrite Z.sub_0_r. revert n Hn. refine (natlike_ind _ _ _).
  - simpl. do 2 f_equal. lia.
  - intros m Hm IH. rewrite <- Z.add_1_r, seqZ_app_r by lia. rewrite fmap_app, !foldM_app, IH.
    destruct (foldM f _ s) as [s'| | |]; simpl; try done. rewrite Hb. rewrite Z.add_0_l. destruct (f s' (a + m * step)); simpl; try done. do 2 f_equal. lia.
Qed.
Lemma arith_range b e s l : is_range_list b e s l -> l = arith b s (zlen l).
Proof.
  intros H. apply zlook_ext_lt.
  - unfold arith. rewrite zlen_fmap, zlen_seqZ. pose proof (zlen_nonneg l). lia.
  - intros i Hi. unfold arith. rewrite zlook_fmap, zlook_seqZ by lia. simpl. destruct (zlook_lt l i Hi) as [v Hv]. rewrite Hv.
    apply H in Hv as (_ & -> & _). f_equal; lia.
Qed.

(** Loops over [xs] where the turn for [x] appends one block to what the state records. *)
Lemma foldM_blocks {X B S} (f : S -> X -> res S) (blk : X -> B -> Prop) (st : list B -> S) xs bs :
  Forall2 blk xs bs ->
  (forall pre x b post, bs = pre ++ b :: post -> blk x b -> f (st pre) x = Ok (st (pre ++ [b]))) ->
  foldM f xs (st []) = Ok (st bs).
Proof.
  intros H Hstep. enough (G : forall pre, (forall pre' x b post, bs = pre' ++ b :: post -> blk x b -> f (st (pre ++ pre')) x = Ok (st (pre ++ pre' ++ [b]))) ->
    foldM f xs (st pre) = Ok (st (pre ++ bs))) by (apply (G []); done).
  clear Hstep. induction H as [|x b xs bs Hx H IH]; intros pre Hs; simpl; [by rewrite app_nil_r|].
  rewrite <- (app_nil_r pre) at 1. rewrite (Hs [] x b bs) by done. simpl. rewrite (IH (pre ++ [b])); [by rewrite <- app_assoc|].
  intros pre' x' b' post -> Hb. rewrite <- !app_assoc. apply (Hs (b :: pre') x' b' post); done.
Qed.
Lemma foldM_blocks_throw {X B S} (f : S -> X -> res S) (blk : X -> B -> Prop) (st : list B -> S) xs :
  (forall x, x ∈ xs -> (exists b, blk x b) \/ forall b, ~ blk x b) ->
  (forall pre x b, zlen pre < zlen xs -> blk x b -> f (st pre) x = Ok (st (pre ++ [b]))) ->
  (forall pre x, zlen pre < zlen xs -> (forall b, ~ blk x b) -> f (st pre) x = Throw) ->
  (exists x, x ∈ xs /\ forall b, ~ blk x b) ->
  foldM f xs (st []) = Throw.
Proof.
  intros Hd Hok Hth Hex. enough (G : forall pre, (forall pre' x b, zlen pre' < zlen xs -> blk x b -> f (st (pre ++ pre')) x = Ok (st (pre ++ pre' ++ [b]))) ->
    (forall pre' x, zlen pre' < zlen xs -> (forall b, ~ blk x b) -> f (st (pre ++ pre')) x = Throw) -> foldM f xs (st pre) = Throw) by (apply (G []); done).
  clear Hok Hth. induction xs as [|x xs IH]; intros pre Hs Ht; [destruct Hex as (x & Hx & _); by apply elem_of_nil in Hx|]. simpl.
  assert (0 < zlen (x :: xs)) by (unfold zlen; simpl; lia). pose proof (zlen_cons x xs) as Hc.
  rewrite <- (app_nil_r pre) at 1. destruct (Hd x) as [[b Hb]|Hn]; [left| |].
  - rewrite (Hs [] x b) by done. simpl. apply IH.
    + intros y Hy. apply Hd. by right.
    + destruct Hex as (y & Hy & Hn). apply elem_of_cons in Hy as [->|Hy]; [exfalso; by apply (Hn b)|]. by exists y.
    + intros pre' x' b' Hl Hb'. rewrite <- !app_assoc. apply (Hs (b :: pre') x' b'); [rewrite zlen_cons; lia|done].
    + intros pre' x' Hl Hb'. rewrite <- !app_assoc. apply (Ht (b :: pre') x'); [rewrite zlen_cons; lia|done].
  - rewrite (Ht [] x) by done. done.
Qed.

(** The list of prefix sums. *)
Definition psums (l : list Z) : list Z := (fun i => zsum (take (Z.to_nat i) l)) <$> seqZ 0 (zlen l + 1).
Lemma psums_ok l : prefix_sums l (psums l).
Proof.
  pose proof (zlen_nonneg l). unfold psums. split; [rewrite zlen_fmap, zlen_seqZ; lia|]. intros i Hi. rewrite zlook_fmap, zlook_seqZ by lia. done.
Qed.
Lemma psums_snoc_eq l x : psums (l ++ [x]) = psums l ++ [zsum l + x].
Proof. eapply psums_unique; [apply psums_ok|]. apply psums_snoc, psums_ok. Qed.
Lemma psums_len l : zlen (psums l) = zlen l + 1.
Proof. apply (proj1 (psums_ok l)). Qed.
Lemma psums_end l : psums l @ zlen l = Some (zsum l).
Proof. apply psums_last, psums_ok. Qed.
Lemma prefix_sums_eq l r : prefix_sums l r -> r = psums l.
Proof. intros H. eapply psums_unique; [done|apply psums_ok]. Qed.
Lemma wrc_fill {A} (k : list A) m p x : 1 <= m -> p = zlen k -> wrc ((Some <$> k) ++ malloc A m) p x = Ok ((Some <$> (k ++ [x])) ++ malloc A (m - 1)).
Proof.
  intros Hm Hp. assert (Hw : wp (wrc ((Some <$> k) ++ malloc A m) p x) (fun r => r = (Some <$> (k ++ [x])) ++ malloc A (m - 1)) False) by (apply wp_fill; [lia|done|done]).
  apply wp_ok in Hw as (r & -> & ->). done.
Qed.
Lemma copyc_fill {A} (src : list A) a b (k : list A) m p : 0 <= a -> a <= b -> b <= zlen src -> b - a <= m -> p = zlen k ->
  copyc src a b ((Some <$> k) ++ malloc A m) p = Ok ((Some <$> (k ++ sub src a b)) ++ malloc A (m - (b - a))).
Proof.
  intros. assert (Hw : wp (copyc src a b ((Some <$> k) ++ malloc A m) p) (fun r => r = (Some <$> (k ++ sub src a b)) ++ malloc A (m - (b - a))) False)
    by (apply wp_fill_copy; done). apply wp_ok in Hw as (r & -> & ->). done.
Qed.
(** Filling with the values of a list, the position being carried along. *)
Lemma forZ_fill {A} (body : Z -> Z * list (option A) -> res (Z * list (option A))) (g : Z -> A) n k m :
  (forall j p ret, body j (p, ret) = let* ret := wrc ret p (g j) in Ok (p + 1, ret)) -> 0 <= n -> n <= m ->
  forZ 0 n body (zlen k, (Some <$> k) ++ malloc A m) = Ok (zlen k + n, (Some <$> (k ++ (g <$> seqZ 0 n))) ++ malloc A (m - n)).
Proof.
  intros Hb Hn Hm.
  assert (Hw : wp (forZ 0 n body (zlen k, (Some <$> k) ++ malloc A m)) (fun r => r = (zlen k + n, (Some <$> (k ++ (g <$> seqZ 0 n))) ++ malloc A (m - n))) False).
  { apply (wp_forZ (fun i s => s = (zlen k + i, (Some <$> (k ++ (g <$> seqZ 0 i))) ++ malloc A (m - i)))).
    - done.
    - simpl. rewrite app_nil_r, Z.sub_0_r, Z.add_0_r. done.
    - intros i s Hi ->. rewrite Hb. rewrite wrc_fill; [|lia|rewrite zlen_app, zlen_fmap, zlen_seqZ by lia; lia]. cbn [bind wp]. rewrite seqZ_app_r, Z.add_0_l by lia.
      rewrite (fmap_app g), (app_assoc k). simpl. f_equal; [lia|]. do 2 f_equal. lia.
    - done. }
  apply wp_ok in Hw as (r & -> & ->). done.
Qed.
Lemma elem_split {X} (x : X) xs : x ∈ xs -> exists a b, xs = a ++ x :: b.
Proof. intros H. by apply elem_of_list_split in H. Qed.
Lemma Forall2_has {X B} (P : X -> B -> Prop) xs : (forall x, x ∈ xs -> exists b, P x b) -> exists bs, Forall2 P xs bs.
Proof.
  induction xs as [|x xs IH]; intros H; [by exists []|]. destruct (H x) as [b Hb]; [left|]. destruct IH as [bs Hbs]; [intros y Hy; apply H; by right|].
  exists (b :: bs). by constructor.
Qed.
Lemma Forall2_elem {X B} (P : X -> B -> Prop) xs bs x : Forall2 P xs bs -> x ∈ xs -> exists b, P x b.
Proof.
  intros H. induction H as [|y b xs bs Hy H IH]; intros Hx; [by apply elem_of_nil in Hx|]. apply elem_of_cons in Hx as [->|Hx]; [by exists b|auto].
Qed.
Lemma Forall_or_ex {X} (P : X -> Prop) (xs : list X) : (forall x, x ∈ xs -> P x \/ ~ P x) -> (forall x, x ∈ xs -> P x) \/ exists x, x ∈ xs /\ ~ P x.
Proof.
  induction xs as [|x xs IH]; intros H; [left; intros x Hx; by apply elem_of_nil in Hx|]. destruct (H x) as [Hx|Hx]; [left| |].
  - destruct IH as [IH|(y & Hy & Hn)]; [intros y Hy; apply H; by right| |].
    + left. intros y Hy. apply elem_of_cons in Hy as [->|Hy]; auto.
    + right. exists y. split; [by right|done].
  - right. exists x. split; [left|done].
Qed.
Lemma elem_of_zlook_1 {A} (l : list A) i x : l @ i = Some x -> x ∈ l.
Proof. apply zlook_elem. Qed.
