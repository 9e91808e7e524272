(** Cells of a type; cells sorted by type. *)
From Coq Require Import QArith ZifyBool ZifyNat.
From Verif Require Import Base DataArray ArrLib StdModel StdProofs FillLib RenumSpec RenumProofs IndexSpec IndexProofs3 CellTable UmModel UmSpec UmProofs UmProofs2 UmProofs8 UcModel UcProofs3 UcProofs5 TyModel TySpec TyProofs.
Local Open Scope Z_scope.

Lemma runs_cons x r : runs (x :: r) = match runs r with [] => [(x, 1)] | (y, n) :: q => if x =? y then (y, n + 1) :: q else (x, 1) :: (y, n) :: q end.
Proof. done. Qed.
Lemma runs_head x r : exists n q, runs (x :: r) = (x, n) :: q.
Proof. rewrite runs_cons. destruct (runs r) as [|(y, n) q]; [eauto|]. destruct (Z.eqb_spec x y) as [->|]; eauto. Qed.
(** The heads of the runs of [x :: r]. *)
Lemma heads_cons x r : (runs (x :: r)).*1 = match r with y :: _ => if x =? y then (runs r).*1 else x :: (runs r).*1 | [] => [x] end.
Proof.
  rewrite runs_cons. destruct r as [|y r]; [done|]. destruct (runs_head y r) as (n & q & ->). destruct (x =? y); done.
Qed.
Lemma heads_elem l t : t ∈ (runs l).*1 <-> t ∈ l.
Proof.
  induction l as [|x l IH]; [done|]. rewrite heads_cons, elem_of_cons, <- IH. destruct l as [|y l]; [rewrite elem_of_list_singleton; simpl; split; [tauto|]; intros [H|H]; [done|]; apply elem_of_nil in H; done|].
  destruct (Z.eqb_spec x y) as [->|]; [|rewrite elem_of_cons; tauto]. split; [tauto|]. intros [->|H]; [|done]. apply IH. apply elem_of_cons. tauto.
Qed.
Lemma contig_cons x r : contiguous (x :: r) <-> contiguous r /\ (x ∈ r -> r @ 0 = Some x).
Proof.
  split.
  - intros H. split.
    + intros i j k t Hij Hi Hk. pose proof (zlook_Some_lt _ _ _ Hi). specialize (H (i + 1) (j + 1) (k + 1) t ltac:(lia)). rewrite !zlook_cons in H. replace (i + 1 =? 0) with false in H by lia. replace (j + 1 =? 0) with false in H by lia. replace (k + 1 =? 0) with false in H by lia.
      replace (i + 1 - 1) with i in H by lia. replace (j + 1 - 1) with j in H by lia. replace (k + 1 - 1) with k in H by lia. apply H; done.
    + intros Hx. apply elem_of_zlook in Hx as [k Hk]. pose proof (zlook_Some_lt _ _ _ Hk). destruct (decide (k = 0)) as [->|]; [done|]. specialize (H 0 1 (k + 1) x ltac:(lia)). rewrite !zlook_cons in H. cbn [Z.eqb Pos.eqb] in H. replace (k + 1 =? 0) with false in H by lia. replace (k + 1 - 1) with k in H by lia. apply H; done.
  - intros [H Hx] i j k t Hij Hi Hk. rewrite zlook_cons in Hi. rewrite zlook_cons in Hk. rewrite zlook_cons. pose proof (zlook_Some_lt (x :: r) i t ltac:(rewrite zlook_cons; done)). destruct (Z.eqb_spec k 0); [lia|]. destruct (Z.eqb_spec j 0); [lia|].
    destruct (Z.eqb_spec i 0) as [->|].
    + injection Hi as <-. specialize (Hx ltac:(eapply zlook_elem; exact Hk)). destruct (decide (j = 1)) as [->|]; [done|]. apply (H 0 (j - 1) (k - 1)); [lia|done|done].
    + apply (H (i - 1) (j - 1) (k - 1)); [lia|done|done].
Qed.
Lemma contig_runs l : contiguous l <-> NoDup (runs l).*1.
Proof.
  induction l as [|x l IH]; [split; [constructor|]; intros _ i j k t _ Hi; rewrite zlook_nil in Hi; done|]. rewrite contig_cons, heads_cons, IH. destruct l as [|y l].
  - split; [intros _; apply NoDup_singleton|]. intros _. split; [constructor|]. intros H. apply elem_of_nil in H. done.
  - destruct (Z.eqb_spec x y) as [->|].
    + split; [tauto|]. intros H. split; [done|]. done.
    + rewrite NoDup_cons, heads_elem. rewrite zlook_cons. cbn [Z.eqb]. split; [|intros [H1 H2]; split; [done|]; intros H; done]. intros [H1 H2]. split; [|done]. intros H. specialize (H2 H). congruence.
Qed.
Lemma firsts_elem l t : t ∈ firsts l <-> t ∈ l.
Proof.
  induction l as [|x l IH]; [done|]. cbn [firsts]. rewrite !elem_of_cons, <- IH. rewrite elem_of_list_In, filter_In, <- elem_of_list_In. split; [intros [->|[H _]]; tauto|]. intros [->|H]; [tauto|]. destruct (Z.eqb_spec t x); [tauto|]. right. split; [done|lia].
Qed.
Lemma firsts_nodup l : NoDup (firsts l).
Proof.
  induction l as [|x l IH]; [constructor|]. cbn [firsts]. constructor; [rewrite elem_of_list_In, filter_In; lia|]. rewrite NoDup_ListNoDup. apply List.NoDup_filter. rewrite <- NoDup_ListNoDup. done.
Qed.
Lemma filter_all {A} (p : A -> bool) l : (forall x, x ∈ l -> p x = true) -> List.filter p l = l.
Proof. induction l as [|x l IH]; [done|]. intros H. cbn [List.filter]. rewrite (H x) by (apply elem_of_cons; tauto). f_equal. apply IH. intros y Hy. apply H. apply elem_of_cons. tauto. Qed.
Lemma firsts_contig l : contiguous l -> firsts l = (runs l).*1.
Proof.
  induction l as [|x l IH]; [done|]. rewrite contig_cons. intros [Hc Hx]. rewrite heads_cons. cbn [firsts]. rewrite IH by done. destruct l as [|y l]; [done|].
  rewrite zlook_cons in Hx. cbn [Z.eqb] in Hx. destruct (Z.eqb_spec x y) as [->|Hn].
  - destruct (runs_head y l) as (n & q & E). rewrite E. rewrite fmap_cons. cbn [fst List.filter]. replace (y =? y) with true by lia. cbn [negb]. f_equal. apply filter_all.
    intros z Hz. apply contig_runs in Hc. rewrite E, fmap_cons, NoDup_cons in Hc. cbn [fst] in Hc. destruct (Z.eqb_spec z y) as [->|]; [tauto|done].
  - f_equal. apply filter_all. intros z Hz. rewrite heads_elem in Hz. destruct (Z.eqb_spec z x) as [->|]; [|done]. specialize (Hx Hz). congruence.
Qed.
Lemma number_expand g t n a b : NoDup g.*1 -> (forall p, p ∈ g -> 0 <= p.2) -> g = a ++ (t, n) :: b -> number (expand g) t = n.
Proof.
  intros Hn Hp ->. unfold number. rewrite expand_app, expand_cons. rewrite !count_occ_app.
  assert (Hz : forall q, t ∉ q.*1 -> count_occ Z.eq_dec (expand q) t = O).
  { intros q Hq. apply count_occ_not_In. rewrite <- elem_of_list_In. intros H. apply Hq. unfold expand in H. apply elem_concat' in H as (x & Hm & Hx). apply elem_of_list_fmap in Hm as (p & -> & Hpq). apply elem_of_replicate in Hx as [-> _]. apply elem_of_list_fmap. exists p. done. }
  rewrite fmap_app, fmap_cons in Hn. apply NoDup_app in Hn as (_ & H1 & H2). cbn [fst] in H1, H2. rewrite NoDup_cons in H2. rewrite (Hz a), (Hz b); [|tauto|]; [|intros H; apply (H1 t H); apply elem_of_cons; tauto].
  specialize (Hp (t, n) ltac:(apply elem_of_app; right; apply elem_of_cons; tauto)). cbn [snd] in Hp. clear - Hp.
  assert (forall k, count_occ Z.eq_dec (replicate k t) t = k) as ->; [|lia]. intros k. induction k as [|k IH]; [done|]. cbn [replicate]. rewrite count_occ_cons_eq by done. rewrite IH. done.
Qed.
Lemma proper_nonneg g p : proper_runs g -> p ∈ g -> 1 <= p.2.
Proof. induction g as [|(x, n) g IH]; [intros _ H; apply elem_of_nil in H; done|]. cbn [proper_runs]. intros (H1 & _ & H2) H. apply elem_of_cons in H as [->|H]; [done|]. apply IH; done. Qed.
Lemma number_run l t n a b : contiguous l -> runs l = a ++ (t, n) :: b -> number l t = n.
Proof.
  intros Hc E. destruct (runs_ok l) as [H1 H2]. rewrite <- H1 at 1. eapply number_expand; [apply contig_runs, Hc| |exact E]. intros p Hp. pose proof (proper_nonneg _ _ H2 Hp). lia.
Qed.
(** Order of the runs and order of the values. *)
Lemma runs_pair l i j s t : i < j -> l @ i = Some s -> l @ j = Some t -> s <> t -> exists p q, p < q /\ (runs l).*1 @ p = Some s /\ (runs l).*1 @ q = Some t.
Proof.
  revert i j. induction l as [|x l IH]; intros i j Hij Hi Hj Hn; [rewrite zlook_nil in Hi; done|]. pose proof (zlook_Some_lt _ _ _ Hi). rewrite zlook_cons in Hi. rewrite zlook_cons in Hj. destruct (Z.eqb_spec j 0); [lia|]. rewrite heads_cons.
  assert (Hl : t ∈ l) by (eapply zlook_elem; exact Hj). destruct l as [|y l]; [apply elem_of_nil in Hl; done|].
  destruct (Z.eqb_spec i 0) as [->|].
  - injection Hi as ->. apply heads_elem in Hl. destruct (Z.eqb_spec s y) as [->|Hsy].
    + destruct (runs_head y l) as (k & q & E). rewrite E in *. rewrite fmap_cons in *. cbn [fst] in *. apply elem_of_cons in Hl as [->|Hl]; [done|]. apply elem_of_zlook in Hl as [p Hp]. pose proof (zlook_Some_lt _ _ _ Hp). exists 0, (p + 1). split; [lia|]. split; [done|]. rewrite zlook_cons. replace (p + 1 =? 0) with false by lia. replace (p + 1 - 1) with p by lia. done.
    + apply elem_of_zlook in Hl as [p Hp]. pose proof (zlook_Some_lt _ _ _ Hp). exists 0, (p + 1). split; [lia|]. split; [done|]. rewrite zlook_cons. replace (p + 1 =? 0) with false by lia. replace (p + 1 - 1) with p by lia. done.
  - destruct (IH (i - 1) (j - 1)) as (p & q & Hpq & Hp & Hq); [lia|done|done|done|]. destruct (Z.eqb_spec x y) as [->|]; [eauto|]. pose proof (zlook_Some_lt _ _ _ Hp). exists (p + 1), (q + 1). split; [lia|]. rewrite !zlook_cons. replace (p + 1 =? 0) with false by lia. replace (q + 1 =? 0) with false by lia. replace (p + 1 - 1) with p by lia. replace (q + 1 - 1) with q by lia. done.
Qed.
Lemma expand_first pre x n post s : proper_runs (pre ++ (x, n) :: post) -> (pre.*1) @ s = Some x -> exists i, 0 <= i < size pre /\ expand pre @ i = Some x.
Proof.
  intros Hp Hs. assert (x ∈ expand pre) as H.
  { apply zlook_elem in Hs. apply elem_of_list_fmap in Hs as ((y, k) & -> & Hm). cbn [fst]. unfold expand. apply elem_concat'. exists (replicate (Z.to_nat k) y). apply proper_app in Hp as [Hp _]. pose proof (proper_nonneg _ _ Hp Hm) as H. cbn [snd] in H. split; [apply elem_of_list_fmap; exists (y, k); done|]. apply elem_of_replicate. split; [done|lia]. }
  apply elem_of_zlook in H as [i Hi]. exists i. split; [|done]. apply zlook_Some_lt in Hi. unfold size. lia.
Qed.
Lemma in_expand pre x : proper_runs pre -> x ∈ pre.*1 <-> x ∈ expand pre.
Proof.
  intros Hp. split.
  - intros H. apply elem_of_list_fmap in H as ((y, k) & -> & Hm). cbn [fst]. unfold expand. apply elem_concat'. exists (replicate (Z.to_nat k) y). pose proof (proper_nonneg _ _ Hp Hm) as H. cbn [snd] in H. split; [apply elem_of_list_fmap; exists (y, k); done|]. apply elem_of_replicate. split; [done|lia].
  - intros H. unfold expand in H. apply elem_concat' in H as (z & Hm & Hz). apply elem_of_list_fmap in Hm as (p & -> & Hpq). apply elem_of_replicate in Hz as [-> _]. apply elem_of_list_fmap. exists p. done.
Qed.
(** A value met before the run. *)
Lemma met_before l pre t n post : runs l = pre ++ (t, n) :: post -> forall x, x ∈ pre.*1 <-> exists i, 0 <= i < size pre /\ l @ i = Some x.
Proof.
  intros E x. destruct (runs_ok l) as [_ Hp]. rewrite E in Hp. apply proper_app in Hp as [Hp _]. rewrite (in_expand pre x Hp). rewrite <- (run_take _ _ _ _ _ E). pose proof (run_size _ _ _ _ _ E). pose proof (run_pos _ _ _ _ _ E). split.
  - intros H1. apply elem_of_zlook in H1 as [i Hi]. pose proof (zlook_Some_lt _ _ _ Hi) as Hl. rewrite zlen_take in Hl. exists i. split; [lia|]. rewrite zlook_take in Hi by lia. done.
  - intros (i & Hi & Hx). apply (zlook_elem _ i). rewrite zlook_take by lia. done.
Qed.
Lemma again_not_contig l pre t n post : runs l = pre ++ (t, n) :: post -> t ∈ pre.*1 -> ~ contiguous l.
Proof. intros E H Hc. apply contig_runs in Hc. rewrite E, fmap_app in Hc. apply NoDup_app in Hc as (_ & Hc & _). apply (Hc t H). rewrite fmap_cons. apply elem_of_cons. tauto. Qed.

(** * The methods *)
Lemma give_ok m cells t : stores m cells -> giveCellsWithType m t = (let* d := getMeshDimension m in let* k := GetCellModel t in throw_if negb (d =? cm_dim k) >>> Ok (ranks_of (kinds cells) t)).
Proof.
  intros Hs. destruct (stores_get m cells Hs) as (conn & connI & Ec & EI & Hsky & _). unfold giveCellsWithType, checkConnectivityFullyDefined. rewrite Ec, EI, (numCells_ok m cells Hs). cbn [bind].
  destruct (getMeshDimension m); try done. cbn [bind]. destruct (GetCellModel t) as [k| | |]; try done. cbn [bind]. destruct (negb _); [done|]. cbn [ifthrow].
  unfold ranks_of. rewrite zlen_kinds.
  assert (W : wp (forZ 0 (zlen cells) (fun i ret => let* t0 := typeAt conn connI i in Ok (if t0 =? t then ret ++ [i] else ret)) []) (fun r => r = List.filter (fun i => bool_decide (kinds cells @ i = Some t)) (seqZ 0 (zlen cells))) False).
  { apply (wp_forZ (fun i r => r = List.filter (fun i => bool_decide (kinds cells @ i = Some t)) (seqZ 0 i))); [apply zlen_nonneg|done| |done].
    intros i r Hi ->. destruct (zlook_lt (kinds cells) i) as [u Hu]; [rewrite zlen_kinds; lia|]. rewrite (typeAt_ok _ _ _ Hsky _ _ Hu). cbn [bind wp]. rewrite seqZ_app_r by lia. rewrite Z.add_0_l, List.filter_app. cbn [List.filter]. rewrite Hu.
    destruct (Z.eqb_spec u t) as [->|]; [rewrite bool_decide_true by done; done|]. rewrite bool_decide_false by congruence. rewrite app_nil_r. done. }
  apply wp_ok in W as (r & -> & ->). done.
Qed.
Lemma take_snoc_z {A} (l : list A) i x : l @ i = Some x -> take (Z.to_nat (i + 1)) l = take (Z.to_nat i) l ++ [x].
Proof. intros H. pose proof (zlook_Some_lt _ _ _ H). replace (Z.to_nat (i + 1)) with (S (Z.to_nat i)) by lia. apply take_S_r. rewrite <- zlook_to_nat by lia. done. Qed.
Lemma number_snoc l x t : number (l ++ [x]) t = number l t + (if x =? t then 1 else 0).
Proof. unfold number. rewrite count_occ_app. cbn [count_occ]. destruct (Z.eq_dec x t), (Z.eqb_spec x t); lia. Qed.
Lemma count_ok m cells t : stores m cells -> getNumberOfCellsWithType m t = Ok (number (kinds cells) t).
Proof.
  intros Hs. destruct (stores_get m cells Hs) as (conn & connI & Ec & EI & Hsky & _). unfold getNumberOfCellsWithType, unchecked. rewrite Ec, EI, (numCells_ok m cells Hs). cbn [bind].
  assert (W : wp (forZ 0 (zlen cells) (fun i ret => let* t0 := typeAt conn connI i in Ok (if t0 =? t then ret + 1 else ret)) 0) (fun r => r = number (kinds cells) t) False).
  { apply (wp_forZ (fun i r => r = rank_among (kinds cells) t i)); [apply zlen_nonneg|done| |].
    - intros i r Hi ->. destruct (zlook_lt (kinds cells) i) as [u Hu]; [rewrite zlen_kinds; lia|]. rewrite (typeAt_ok _ _ _ Hsky _ _ Hu). cbn [bind wp]. unfold rank_among. rewrite (take_snoc_z _ _ _ Hu), number_snoc. destruct (u =? t); lia.
    - intros r ->. unfold rank_among. rewrite <- (zlen_kinds cells). rewrite take_ge; [done|]. unfold zlen. lia. }
  apply wp_ok in W as (r & -> & ->). done.
Qed.
Lemma keep_ok m cells t ids : stores m cells -> is_Some (um_coords m) -> (forall v, v ∈ ids -> 0 <= v < zlen cells) ->
  keepCellIdsByType m t ids = Ok (List.filter (fun i => bool_decide (kinds cells @ i = Some t)) ids).
Proof.
  intros Hs [co Eco] Hi. destruct (stores_get m cells Hs) as (conn & connI & Ec & EI & Hsky & _). unfold keepCellIdsByType, checkFullyDefined. rewrite Ec, EI, Eco.
  assert (H : forall r, foldM (fun ret w => let* t0 := typeAt conn connI w in Ok (if t0 =? t then ret ++ [w] else ret)) ids r = Ok (r ++ List.filter (fun i => bool_decide (kinds cells @ i = Some t)) ids)); [|apply (H [])].
  induction ids as [|v ids IH]; intros r; [rewrite app_nil_r; done|]. cbn [foldM List.filter].
  destruct (zlook_lt (kinds cells) v) as [u Hu]; [rewrite zlen_kinds; apply Hi, elem_of_cons; tauto|]. rewrite (typeAt_ok _ _ _ Hsky _ _ Hu). cbn [bind]. rewrite IH by (intros w Hw; apply Hi, elem_of_cons; tauto). rewrite Hu.
  destruct (Z.eqb_spec u t) as [->|]; [rewrite bool_decide_true by done; rewrite <- app_assoc; done|]. rewrite bool_decide_false by congruence. done.
Qed.
Lemma consecutive_ok m cells : stores m cells -> is_Some (um_coords m) -> exists b, checkConsecutiveCellTypes m = Ok b /\ (b = true <-> contiguous (kinds cells)).
Proof.
  intros Hs [co Eco]. destruct (stores_get m cells Hs) as (conn & connI & Ec & EI & Hsky & _). unfold checkConsecutiveCellTypes, checkFullyDefined. rewrite Ec, EI, Eco, (numCells_ok m cells Hs). cbn [bind]. rewrite <- (zlen_kinds cells).
  match goal with |- context [onRuns _ ?b ?s] => assert (W : wp (onRuns (zlen (kinds cells)) b s) (fun r => r.1 <> None <-> contiguous (kinds cells)) False) end.
  { apply (wp_onRuns (kinds cells) (fun pre (types : list Z) => (forall t, t ∈ types <-> t ∈ pre.*1) /\ NoDup pre.*1)).
    - split; [done|]. constructor.
    - intros pre t n post types E [H1 H2]. rewrite (run_type _ _ _ Hsky _ _ _ _ E). cbn [bind]. destruct (smem t types) eqn:Em.
      + cbn [wp fst snd]. apply smem_spec in Em. split; [done|]. intros Hc. exfalso. eapply again_not_contig; [exact E|apply H1, Em|exact Hc].
      + rewrite zlen_kinds, (findOther_ok _ _ _ Hsky _ _ _ _ E). cbn [bind wp fst snd]. split; [done|]. assert (Hn : t ∉ pre.*1). { intros H. apply H1, smem_spec in H. congruence. } split.
        * intros u. rewrite elem_of_sins, H1, fmap_app. rewrite elem_of_app. cbn. rewrite elem_of_list_singleton. tauto.
        * rewrite fmap_app. apply NoDup_app. split; [done|]. cbn. split; [|apply NoDup_singleton]. intros u Hu Ht. apply elem_of_list_singleton in Ht. congruence.
    - intros types [_ H]. cbn [fst]. split; [|done]. intros _. apply contig_runs. done. }
  apply wp_ok in W as ([o s] & -> & H). cbn [bind]. eexists. split; [reflexivity|]. rewrite <- H. cbn [fst]. destruct o; split; done.
Qed.
