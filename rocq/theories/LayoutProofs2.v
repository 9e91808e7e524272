(** Proofs for C31 (components apart and together). *)
From Verif Require Import Base DataArray ArrLib IndexSpec FillLib RenumSpec RenumProofs IndexProofs4 LayoutSpec LayoutModel LayoutProofs.
From Coq Require Import ZifyBool ZifyNat.

Lemma zlook_concat {B A} (g : B -> list A) l c i x j : (forall x, x ∈ l -> zlen (g x) = c) -> l @ i = Some x -> 0 <= j < c ->
  concat (g <$> l) @ (i * c + j) = g x @ j.
Proof.
  intros Hc Hi Hj. revert i Hi. induction l as [|y l IH]; intros i Hi; [change ((@nil B) @ i = Some x) in Hi; rewrite zlook_nil in Hi; done|]. rewrite zlook_cons in Hi.
  assert (Hy : zlen (g y) = c) by (apply Hc; left). simpl. destruct (Z.eqb_spec i 0) as [E|E].
  - rewrite E. injection Hi as ->. rewrite zlook_app_l by lia. done.
  - apply zlook_Some_lt in Hi as ?. rewrite zlook_app_r by nia. rewrite Hy. replace (i * c + j - c) with ((i - 1) * c + j) by lia.
    apply IH; [|done]. intros z Hz. apply Hc. by right.
Qed.
Lemma zlen_concat_c {B A} (g : B -> list A) l c : (forall x, x ∈ l -> zlen (g x) = c) -> zlen (concat (g <$> l)) = zlen l * c.
Proof.
  intros Hc. induction l as [|y l IH]; [done|]. rewrite fmap_cons. cbn [concat]. rewrite zlen_app, IH by (intros; apply Hc; by right). rewrite (Hc y) by left. unfold zlen. simpl. lia.
Qed.
Lemma tuple_sub {A} (d : da A) i : tuple d i = sub (da_vals d) (i * da_nc d) (i * da_nc d + da_nc d).
Proof. unfold tuple, sub. f_equal. f_equal. lia. Qed.
Lemma zlen_tuple {A} (d : da A) i : da_wf d -> 0 <= i < da_nt d -> zlen (tuple d i) = da_nc d.
Proof. intros Hwf Hi. destruct (da_wf_len d Hwf) as (Hl & ? & ?). rewrite tuple_sub, zlen_sub; nia. Qed.
Lemma zlook_tuple {A} (d : da A) i j : da_wf d -> 0 <= i < da_nt d -> 0 <= j < da_nc d -> tuple d i @ j = da_vals d @ (i * da_nc d + j).
Proof. intros Hwf Hi Hj. destruct (da_wf_len d Hwf) as (Hl & ? & ?). rewrite tuple_sub, zlook_sub by nia. done. Qed.
Lemma concat_tuples {A} (d : da A) : da_wf d -> concat (tuples d) = da_vals d.
Proof.
  intros Hwf. destruct (da_wf_len d Hwf) as (Hl & Hn & Hc).
  assert (Hu : forall x, x ∈ seqZ 0 (da_nt d) -> zlen (tuple d x) = da_nc d) by (intros x Hx; apply elem_of_seqZ in Hx; apply zlen_tuple; [done|lia]).
  apply (flat_ext (da_nc d) (da_nt d)); [done| |done|].
  - unfold tuples. rewrite (zlen_concat_c _ _ (da_nc d)) by done. rewrite zlen_seqZ. lia.
  - intros v j Hv Hj. unfold tuples. rewrite (zlook_concat _ _ (da_nc d) v v); [|done|apply zlook_seqZ; lia|done]. apply zlook_tuple; done.
Qed.

Section Expl.
  Context {A : Type}.
  Implicit Types d : da A.
  Lemma explode_wp d : da_wf d -> wp (explodeComponents d) (fun ret => da_alloc d = true /\ exists cols : list (list A), ret = cells <$> cols /\ zlen cols = da_nc d /\
      forall j col, cols @ j = Some col -> zlen col = da_nt d /\ forall i, 0 <= i < da_nt d -> col @ i = da_vals d @ (i * da_nc d + j)) (unallocated d).
  Proof.
    intros Hwf. destruct (da_wf_len d Hwf) as (Hl & Hn & Hc). unfold explodeComponents, checkAllocated.
    apply wp_ifthrow; [destruct (da_alloc d); done|]. intros Ha.
    apply (wp_forZ (fun c ret => exists cols : list (list A), ret = cells <$> cols /\ zlen cols = c /\
      forall j col, cols @ j = Some col -> zlen col = da_nt d /\ forall i, 0 <= i < da_nt d -> col @ i = da_vals d @ (i * da_nc d + j))); [done|exists []|..].
    - split; [done|]. split; [done|]. intros j col Hj. change (@nil (list A) @ j = Some col) in Hj. rewrite zlook_nil in Hj. done.
    - intros c ret Hcb (cols & -> & Hlc & Hv). apply wp_bind. apply wp_alloc; [done|lia|]. rewrite Z.mul_1_l. apply wp_bind.
      apply (wp_forZ (fun i part => exists k, part = (Some <$> k) ++ malloc A (da_nt d - i) /\ zlen k = i /\ forall a, 0 <= a < i -> k @ a = da_vals d @ (a * da_nc d + c))); [done|exists []|..].
      + split; [rewrite Z.sub_0_r; done|]. split; [done|]. intros; lia.
      + intros i part Hi (k & -> & Hk & Hkv). apply wp_bind. apply wp_rd; [nia|]. intros x Hx. apply wp_fill; [lia|done|]. exists (k ++ [x]).
        rewrite zlen_app. change (zlen [x]) with 1. split; [f_equal; f_equal; lia|]. split; [lia|]. intros a Ha'. destruct (Z.eqb_spec a i) as [->|].
        * rewrite zlook_app_r, Hk, Z.sub_diag by lia. replace (i * da_nc d + c) with (da_nc d * i + c) by lia. rewrite Hx. done.
        * rewrite zlook_app_l by lia. apply Hkv. lia.
      + intros part (k & -> & Hk & Hkv). rewrite fill_done by lia. simpl. exists (cols ++ [k]). rewrite fmap_app. split; [done|]. rewrite zlen_app. change (zlen [k]) with 1.
        split; [lia|]. intros j col Hj. rewrite zlook_app in Hj. destruct (Z.ltb_spec j (zlen cols)); [apply Hv; done|].
        apply zlook_Some_lt in Hj as ?. change (zlen [k]) with 1 in *. assert (j = c) as -> by lia. rewrite Hlc, Z.sub_diag in Hj. injection Hj as <-. split; [done|]. done.
    - intros ret H. split; [destruct (da_alloc d); done|done].
  Qed.
  Lemma explode_ok d : da_wf d -> da_alloc d = true -> exists cols : list (list A), explodeComponents d = Ok (cells <$> cols) /\ zlen cols = da_nc d /\
      forall j col, cols @ j = Some col -> zlen col = da_nt d /\ forall i, 0 <= i < da_nt d -> col @ i = da_vals d @ (i * da_nc d + j).
  Proof.
    intros Hwf Ha. pose proof (explode_wp d Hwf) as H. destruct (explodeComponents d) as [r| | |]; simpl in H; try done; [|congruence].
    destruct H as (_ & cols & -> & H). eauto.
  Qed.

  (** Meld *)
  Definition melded (a : list (da A)) (n : Z) : list A := concat ((fun i => concat ((fun d => tuple d i) <$> a)) <$> seqZ 0 n).

  Lemma check_all {X} (P : X -> bool) (l : list X) :
    foldM (fun _ x => ifthrow (P x) (Ok tt)) l tt = if existsb P l then Throw else Ok tt.
  Proof. induction l as [|x l IH]; [done|]. simpl. destruct (P x); [done|]. simpl. done. Qed.
  Lemma existsb_false {X} (P : X -> bool) (l : list X) : existsb P l = false -> forall x, x ∈ l -> P x = false.
  Proof. intros H x Hx. destruct (P x) eqn:E; [|done]. rewrite <- H. symmetry. apply existsb_exists. exists x. split; [|done]. apply elem_of_list_In. done. Qed.
  Lemma existsb_elem {X} (P : X -> bool) (l : list X) : existsb P l = true -> exists x, x ∈ l /\ P x = true.
  Proof. intros H. apply existsb_exists in H as (x & Hx & Hp). exists x. split; [|done]. apply elem_of_list_In. done. Qed.

  Lemma zip_fmap_r {X Y} (f : X -> Y) (l : list X) : zip l (f <$> l) = (fun x => (x, f x)) <$> l.
  Proof. induction l as [|x l IH]; [done|]. simpl. f_equal. done. Qed.
  Lemma pair_fmap_inj {X Y} (f : X -> Y) (l k : list X) : (fun x => (x, f x)) <$> l = (fun x => (x, f x)) <$> k -> l = k.
  Proof.
    revert k. induction l as [|x l IH]; intros [|y k] H; try done. rewrite !fmap_cons in H. injection H as -> _ H. f_equal. auto.
  Qed.
  Lemma fmap_split {X Y} (f : X -> Y) l pre y post : f <$> l = pre ++ y :: post -> exists pre' x post', l = pre' ++ x :: post' /\ pre = f <$> pre' /\ y = f x /\ post = f <$> post'.
  Proof.
    intros H. apply fmap_app_inv in H as (p & q & -> & H & ->). destruct q as [|x q]; [done|]. simpl in H. injection H as -> ->. eauto 8.
  Qed.
  Lemma seqZ_split n pre i post : seqZ 0 n = pre ++ i :: post -> i = zlen pre /\ pre = seqZ 0 i /\ 0 <= i < n.
  Proof.
    intros H. assert (Hi : seqZ 0 n @ zlen pre = Some i) by (rewrite H, zlook_app_r, Z.sub_diag by lia; done).
    apply zlook_Some_lt in Hi as Hb. rewrite zlen_seqZ in Hb. rewrite zlook_seqZ in Hi by lia. injection Hi as <-. split; [lia|]. split; [|lia].
    apply zlook_ext_lt; [rewrite zlen_seqZ; lia|]. intros k Hk. rewrite zlook_seqZ by lia. assert (E : seqZ 0 n @ k = pre @ k) by (rewrite H, zlook_app_l by lia; done).
    rewrite <- E, zlook_seqZ by lia. f_equal.
  Qed.

  Lemma zlen_row (a : list (da A)) n i : (forall d, d ∈ a -> da_wf d /\ da_nt d = n) -> 0 <= i < n -> zlen (concat ((fun d => tuple d i) <$> a)) = zsum (da_nc <$> a).
  Proof.
    intros Ha Hi. induction a as [|d a IH]; [done|]. rewrite fmap_cons. cbn [concat]. rewrite zlen_app, IH by (intros; apply Ha; by right).
    destruct (Ha d) as [Hwf Hd]; [left|]. rewrite zlen_tuple by (done || lia). done.
  Qed.
  Lemma zlen_melded (a : list (da A)) n k : (forall d, d ∈ a -> da_wf d /\ da_nt d = n) -> 0 <= k <= n -> zlen (melded a k) = k * zsum (da_nc <$> a).
  Proof.
    intros Ha Hk. unfold melded. rewrite (zlen_concat_c _ _ (zsum (da_nc <$> a))).
    - rewrite zlen_seqZ, Z.max_r by lia. done.
    - intros i Hi. apply elem_of_seqZ in Hi. apply (zlen_row a n); [done|lia].
  Qed.
  Lemma melded_succ a k : 0 <= k -> melded a (k + 1) = melded a k ++ concat ((fun d => tuple d k) <$> a).
  Proof. intros Hk. unfold melded. rewrite seqZ_app_r by lia. rewrite fmap_app, concat_app. simpl. rewrite app_nil_r. done. Qed.

  Lemma Meld_wp (arr : list (option (da A))) : let a := omap id arr in (forall d, d ∈ a -> da_wf d) ->
    wp (Meld arr) (fun '(c, ret) => exists n, (a <> [] /\ forall d, d ∈ a -> da_alloc d = true /\ da_nt d = n) /\
        c = zsum (da_nc <$> a) /\ ret = Some <$> melded a n)
      (a = [] \/ (exists d, d ∈ a /\ unallocated d) \/ exists d d', d ∈ a /\ d' ∈ a /\ da_nt d <> da_nt d').
  Proof.
    intros a Hwf. unfold Meld. fold a. destruct a as [|a0 a'] eqn:Ea; [simpl; auto|]. rewrite <- Ea in *.
    assert (H0 : a0 ∈ a) by (rewrite Ea; left). unfold checkAllocated. rewrite check_all. destruct (existsb _ a) eqn:E1; [|cbn [bind]].
    { simpl. apply existsb_elem in E1 as (d & Hd & Hx). right; left. exists d. split; [done|]. destruct (da_alloc d); done. }
    pose proof (existsb_false _ _ E1) as E1'. clear E1. rewrite check_all. destruct (existsb _ (drop 1 a)) eqn:E2; [|cbn [bind]].
    { simpl. apply existsb_elem in E2 as (d & Hd & Hx). right; right. exists a0, d. split; [done|]. split; [|lia]. rewrite Ea in Hd |- *. right. done. }
    pose proof (existsb_false _ _ E2) as E2'. clear E2. set (n := da_nt a0) in *.
    assert (Ha : forall d, d ∈ a -> da_wf d /\ da_nt d = n).
    { intros d Hd. split; [auto|]. rewrite Ea in Hd. apply elem_of_cons in Hd as [->|Hd]; [done|]. rewrite Ea in E2'. specialize (E2' d Hd). simpl in E2'. lia. }
    assert (Hn0 : 0 <= n) by (destruct (da_wf_len a0) as (? & ? & ?); [auto|done]).
    rewrite zsum_foldl. set (tot := zsum (da_nc <$> a)). assert (Hnc : forall d, d ∈ a -> 0 <= da_nc d) by (intros d Hd; destruct (da_wf_len d) as (? & ? & ?); [auto|done]).
    assert (Ht : 0 <= tot). { apply zsum_nonneg. intros v Hv. apply elem_of_list_fmap in Hv as (d & -> & Hd). auto. }
    apply wp_bind. apply wp_alloc; [done|done|]. apply wp_bind.
    apply (wp_forZ (fun i '(ret, w, pts) => ret = (Some <$> melded a i) ++ malloc A (tot * n - i * tot) /\ w = i * tot /\ pts = (fun d => i * da_nc d) <$> a)); [done| | |].
    - simpl. split; [rewrite Z.sub_0_r; done|]. split; [done|]. apply list_fmap_ext. done.
    - intros i [[ret w] pts] Hi (-> & -> & ->). apply wp_bind. rewrite zip_fmap_r.
      apply (wp_foldM _ (fun pre '(ret, w, pts') => exists p, pre = (fun d => (d, i * da_nc d)) <$> p /\
        ret = (Some <$> (melded a i ++ concat ((fun d => tuple d i) <$> p))) ++ malloc A (tot * n - (i * tot + zsum (da_nc <$> p))) /\
        w = i * tot + zsum (da_nc <$> p) /\ pts' = (fun d => (i + 1) * da_nc d) <$> p)).
      + exists []. split; [done|]. simpl. rewrite app_nil_r. unfold zsum; simpl. rewrite Z.add_0_r. done.
      + intros pre [d p] post [[ret w] pts'] Hsplit (q & -> & -> & -> & ->). apply fmap_split in Hsplit as (pre' & d' & post' & Hsp & Hq & Hd & _).
        injection Hd as <- ->. assert (q = pre') as ->.
        { apply (pair_fmap_inj (fun d => i * da_nc d)). done. }
        assert (Hda : d ∈ a) by (rewrite Hsp; apply elem_of_app; right; left). destruct (Ha d Hda) as [Hwd Hdn]. destruct (da_wf_len d Hwd) as (Hl & _ & Hcd).
        assert (Hsum : tot = zsum (da_nc <$> pre') + da_nc d + zsum (da_nc <$> post')).
        { unfold tot. rewrite Hsp, fmap_app, zsum_app. rewrite fmap_cons. change (zsum (da_nc d :: (da_nc <$> post'))) with (da_nc d + zsum (da_nc <$> post')). lia. }
        assert (Hnn : forall q, (forall x, x ∈ q -> x ∈ a) -> 0 <= zsum (da_nc <$> q)).
        { intros q Hq'. apply zsum_nonneg. intros v Hv. apply elem_of_list_fmap in Hv as (x & -> & Hx). auto. }
        assert (0 <= zsum (da_nc <$> pre')) by (apply Hnn; intros x Hx; rewrite Hsp; apply elem_of_app; auto).
        assert (0 <= zsum (da_nc <$> post')) by (apply Hnn; intros x Hx; rewrite Hsp; apply elem_of_app; right; right; auto).
        apply wp_bind. apply wp_fill_copy; [nia|lia|rewrite Hl, Hdn; nia|nia| |].
        * rewrite zlen_app, (zlen_melded a n) by (done || lia). fold tot. f_equal. symmetry. apply (zlen_row pre' n); [|done]. intros x Hx. apply Ha. rewrite Hsp. apply elem_of_app. auto.
        * cbn [wp]. exists (pre' ++ [d]). assert (Hz : zsum (da_nc <$> pre' ++ [d]) = zsum (da_nc <$> pre') + da_nc d) by (rewrite fmap_app; apply zsum_snoc).
          rewrite Hz. rewrite !fmap_app, concat_app. split; [done|]. split.
          -- change ((fun d => tuple d i) <$> [d]) with [tuple d i]. cbn [concat]. rewrite app_nil_r, <- tuple_sub. rewrite !fmap_app, <- !app_assoc. do 3 f_equal. f_equal. lia.
          -- split; [lia|]. change ((fun d => (i + 1) * da_nc d) <$> [d]) with [(i + 1) * da_nc d]. do 2 f_equal. lia.
      + intros [[ret w] pts'] (p & Hp & -> & -> & ->). assert (a = p) as <-.
        { apply (pair_fmap_inj (fun d => i * da_nc d)). done. }
        simpl. rewrite <- melded_succ by lia. fold tot. split; [f_equal; f_equal; lia|]. split; [lia|done].
    - intros [[ret w] pts] (-> & _ & _). simpl. exists n. split; [|split; [done|apply fill_done; lia]]. split; [rewrite Ea; done|].
      intros d Hd. destruct (Ha d Hd). split; [|done]. specialize (E1' d Hd). cbv beta in E1'. destruct (da_alloc d); done.
  Qed.
  Lemma Meld_ok (arr : list (option (da A))) n : omap id arr <> [] -> (forall d, d ∈ omap id arr -> da_wf d /\ da_alloc d = true /\ da_nt d = n) ->
    Meld arr = Ok (zsum (da_nc <$> omap id arr), Some <$> melded (omap id arr) n).
  Proof.
    intros Hne Ha. pose proof (Meld_wp arr) as H. simpl in H. specialize (H ltac:(intros d Hd; apply Ha; done)).
    destruct (Meld arr) as [[c r]| | |]; simpl in H; try done.
    - destruct H as (m & (_ & Hm) & -> & ->). assert (n = m) as ->; [|done]. destruct (omap id arr) as [|d a]; [done|].
      destruct (Ha d) as (_ & _ & <-); [left|]. apply Hm. left.
    - exfalso. destruct H as [?|[(d & Hd & Hx)|(d & d' & Hd & Hd' & Hx)]]; [done| |].
      + destruct (Ha d Hd) as (_ & ? & _). congruence.
      + destruct (Ha d Hd) as (_ & _ & ?). destruct (Ha d' Hd') as (_ & _ & ?). congruence.
  Qed.
  Lemma Meld_throw (arr : list (option (da A))) : (forall d, d ∈ omap id arr -> da_wf d) ->
    (Meld arr = Throw <-> omap id arr = [] \/ (exists d, d ∈ omap id arr /\ unallocated d) \/ exists d d', d ∈ omap id arr /\ d' ∈ omap id arr /\ da_nt d <> da_nt d').
  Proof.
    intros Hwf. pose proof (Meld_wp arr Hwf) as H. destruct (Meld arr) as [[c r]| | |]; simpl in H; try done. split; [done|].
    destruct H as (m & (Hne & Hm) & _). intros [?|[(d & Hd & Hx)|(d & d' & Hd & Hd' & Hx)]]; [done| |].
    - destruct (Hm d Hd). congruence.
    - destruct (Hm d Hd) as [_ ?]. destruct (Hm d' Hd') as [_ ?]. congruence.
  Qed.
End Expl.
