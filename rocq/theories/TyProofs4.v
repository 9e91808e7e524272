(** Sort of the cells by type, cut by type, numbers of cells per type. *)
From Coq Require Import QArith ZifyBool ZifyNat.
From Verif Require Import Base DataArray ArrLib StdModel StdProofs FillLib RenumSpec RenumModel RenumProofs SetsModel SetsProofs PermProofs SkyModel SkyProofs SkyProofs3 IndexSpec IndexProofs3 IndexProofs6 CellTable UmModel UmSpec UmProofs UmProofs2 UmProofs3 UmProofs8 UmProofs10 UcModel UcProofs3 UcProofs5 DsProofs5 TyModel TySpec TyProofs TyProofs2 TyProofs3.
Local Open Scope Z_scope.

Lemma kinds_look (cells : list cell) i t : kinds cells @ i = Some t <-> exists c : cell, cells @ i = Some c /\ c.1 = t.
Proof. unfold kinds. rewrite zlook_fmap. destruct (cells @ i) as [c|]; split; [intros [= <-]; eauto|intros (d & [= ->] & <-); done|done|intros (d & H & _); done]. Qed.
(** A numbering that sorts the levels moves the cells as wanted. *)
Section Sorted.
Variables (m : umesh) (cells : list cell) (lev k : list Z).
Hypothesis Hs : stores m cells.
Hypothesis Hlev : zlen lev = zlen cells.
Hypothesis Hk : is_perm (zlen cells) k.
Hypothesis Hord : forall i j x y p q, i < j -> lev @ i = Some x -> lev @ j = Some y -> k @ i = Some p -> k @ j = Some q -> (p < q <-> x <= y).
Hypothesis Hsame : forall i j s t x y, kinds cells @ i = Some s -> kinds cells @ j = Some t -> lev @ i = Some x -> lev @ j = Some y -> (s = t <-> x = y).
Lemma perm_len' : zlen k = zlen cells.
Proof. clear - Hk. unfold is_perm in Hk. unfold zlen. rewrite Hk. rewrite seqZ_length. unfold zlen. lia. Qed.
Lemma sorted_moved : exists m' sel, renumberCells m k false = Ok m' /\ stores m' sel /\ typed m' sel /\ um_dim m' = um_dim m /\ um_coords m' = um_coords m /\ moved cells sel k /\ contiguous (kinds sel) /\
  (forall a b s t x y i j, a < b -> kinds sel @ a = Some s -> kinds sel @ b = Some t -> k @ i = Some a -> k @ j = Some b -> lev @ i = Some x -> lev @ j = Some y -> kinds cells @ i = Some s /\ kinds cells @ j = Some t /\ x <= y).
Proof.
  pose proof perm_len' as Hl. assert (Ht : take (Z.to_nat (zlen cells)) k = k) by (apply take_ge; unfold zlen in *; lia).
  assert (Hnd : NoDup k) by (unfold is_perm in Hk; rewrite Hk; apply NoDup_seqZ). assert (Hr : forall v, v ∈ k <-> 0 <= v < zlen cells) by (intros v; unfold is_perm in Hk; rewrite Hk, elem_of_seqZ; lia).
  destruct (renum_ok m cells k Hs) as (m' & sel & Er & R1 & R2 & R3 & R4 & R5 & R6); [lia|rewrite Ht; done|intros v; rewrite Ht; apply Hr|].
  assert (Hlk : forall i t, k @ i = Some t -> sel @ t = cells @ i). { intros i t H. apply R6; [|done]. apply zlook_Some_lt in H. lia. }
  exists m', sel. split; [done|]. split; [done|]. split; [done|]. split; [done|]. split; [done|].
  assert (Hll : zlen sel = zlen cells) by (unfold zlen; rewrite R5; done).
  assert (Horig : forall a s, kinds sel @ a = Some s -> exists i x, k @ i = Some a /\ lev @ i = Some x /\ kinds cells @ i = Some s).
  { intros a s Ha. pose proof (zlook_Some_lt _ _ _ Ha) as Hal. rewrite zlen_kinds in Hal. assert (Hin : a ∈ k) by (apply Hr; lia). apply elem_of_zlook in Hin as [i Hi]. pose proof (zlook_Some_lt _ _ _ Hi). destruct (zlook_lt lev i) as [x Hx]; [lia|]. exists i, x. split; [done|]. split; [done|].
    apply kinds_look in Ha as (c & Hc & <-). apply kinds_look. exists c. split; [|done]. rewrite <- (Hlk _ _ Hi). done. }
  assert (Hmain : forall a b s t x y i j, a < b -> kinds sel @ a = Some s -> kinds sel @ b = Some t -> k @ i = Some a -> k @ j = Some b -> lev @ i = Some x -> lev @ j = Some y -> kinds cells @ i = Some s /\ kinds cells @ j = Some t /\ x <= y).
  { intros a b s t x y i j Hab Ha Hb Hi Hj Hx Hy. apply kinds_look in Ha as (c & Hc & <-). apply kinds_look in Hb as (d & Hd & <-). rewrite (Hlk _ _ Hi) in Hc. rewrite (Hlk _ _ Hj) in Hd.
    split; [apply kinds_look; eauto|]. split; [apply kinds_look; eauto|]. destruct (Z.lt_trichotomy i j) as [L|[->|L]].
    - apply (Hord i j x y a b); done.
    - assert (a = b) by congruence. lia.
    - pose proof (Hord j i y x b a L Hy Hx Hj Hi). lia. }
  split; [|split; [|done]].
  - split; [done|]. split; [done|]. split; [done|]. intros i j t p q Hij Hi Hj Hp Hq. pose proof (zlook_Some_lt _ _ _ Hi) as Hil. pose proof (zlook_Some_lt _ _ _ Hj) as Hjl. rewrite zlen_kinds in Hil, Hjl. destruct (zlook_lt lev i) as [x Hx]; [lia|]. destruct (zlook_lt lev j) as [y Hy]; [lia|].
    pose proof (Hsame i j t t x y Hi Hj Hx Hy). apply (Hord i j x y p q Hij Hx Hy Hp Hq). lia.
  - intros a b c t Habc Ha Hc. pose proof (zlook_Some_lt _ _ _ Ha). pose proof (zlook_Some_lt _ _ _ Hc). destruct (zlook_lt (kinds sel) b) as [u Hu]; [lia|].
    destruct (Horig a t Ha) as (ia & xa & A1 & A2 & A3). destruct (Horig b u Hu) as (ib & xb & B1 & B2 & B3). destruct (Horig c t Hc) as (ic & xc & C1 & C2 & C3).
    destruct (Hmain a b t u xa xb ia ib ltac:(lia) Ha Hu A1 B1 A2 B2) as (_ & _ & L1). destruct (Hmain b c u t xb xc ib ic ltac:(lia) Hu Hc B1 C1 B2 C2) as (_ & _ & L2).
    pose proof (Hsame ia ic t t xa xc A3 C3 A2 C2). pose proof (Hsame ia ib t u xa xb A3 B3 A2 B2). assert (t = u) as -> by lia. done.
Qed.
End Sorted.
Lemma renumArr_ok m cells order : stores m cells -> (forall t, t ∈ kinds cells -> t ∈ order) ->
  exists k, getRenumArrForConsecutiveCellTypesSpec m order = Ok k /\ exists m' sel, renumberCells m k false = Ok m' /\ stores m' sel /\ typed m' sel /\ um_dim m' = um_dim m /\ um_coords m' = um_coords m /\
    moved cells sel k /\ contiguous (kinds sel) /\ in_order order (kinds sel).
Proof.
  intros Hs Hin. pose proof (lev_wp m cells order Hs) as W. unfold getRenumArrForConsecutiveCellTypesSpec. destruct (getLevArrPerCellTypes m order) as [[lev cnt]| | |]; cbn [wp] in W; try tauto; [|destruct W as (t & H1 & H2); exfalso; auto].
  destruct W as (_ & Hl & Hp & _). cbn [fst snd] in *. cbn [bind]. destruct (perLevel_sorts (vec lev)) as (k & -> & Hk & Ho); [done|done|]. cbn [bind]. rewrite initialised_ok. exists k. split; [done|]. rewrite da_nt_vec, Hl in Hk. cbn [vec da_vals] in Ho.
  destruct (sorted_moved m cells lev k Hs Hl Hk Ho) as (m' & sel & R1 & R2 & R3 & R4 & R5 & R6 & R7 & R8).
  { intros i j s t x y Hi Hj Hx Hy. destruct (Hp i s Hi) as (p & Hpx & Hp1). destruct (Hp j t Hj) as (q & Hqy & Hq1). assert (x = p) as -> by congruence. assert (y = q) as -> by congruence. split; [intros ->; eapply first_pos_uniq; eauto|intros ->; eapply first_pos_val; eauto]. }
  exists m', sel. do 6 (split; [done|]). split; [done|]. intros a b s t p q Hab Ha Hb Hps Hqt.
  destruct R6 as (P1 & P2 & P3 & P4). assert (Hr : forall v, v ∈ k <-> 0 <= v < zlen cells) by (intros v; unfold is_perm in Hk; rewrite Hk, elem_of_seqZ; lia). assert (Hll : zlen sel = zlen cells) by (unfold zlen; rewrite P2; done).
  pose proof (zlook_Some_lt _ _ _ Ha) as La. pose proof (zlook_Some_lt _ _ _ Hb) as Lb. rewrite zlen_kinds in La, Lb. assert (Ia : a ∈ k) by (apply Hr; lia). assert (Ib : b ∈ k) by (apply Hr; lia). apply elem_of_zlook in Ia as [i Hi]. apply elem_of_zlook in Ib as [j Hj].
  assert (Hkl : zlen k = zlen cells) by (apply perm_len'; done). pose proof (zlook_Some_lt _ _ _ Hi). pose proof (zlook_Some_lt _ _ _ Hj). destruct (zlook_lt lev i) as [x Hx]; [lia|]. destruct (zlook_lt lev j) as [y Hy]; [lia|].
  destruct (R8 a b s t x y i j Hab Ha Hb Hi Hj Hx Hy) as (K1 & K2 & K3). destruct (Hp i s K1) as (p' & Hp1 & Hp2). destruct (Hp j t K2) as (q' & Hq1 & Hq2).
  assert (x = p') as -> by congruence. assert (y = q') as -> by congruence. rewrite (first_pos_uniq _ _ _ _ Hps Hp2), (first_pos_uniq _ _ _ _ Hqt Hq2). done.
Qed.
Lemma renumArr_throw m cells order t : stores m cells -> t ∈ kinds cells -> t ∉ order -> getRenumArrForConsecutiveCellTypesSpec m order = Throw.
Proof.
  intros Hs H1 H2. pose proof (lev_wp m cells order Hs) as W. unfold getRenumArrForConsecutiveCellTypesSpec. destruct (getLevArrPerCellTypes m order) as [[lev cnt]| | |]; cbn [wp] in W; try done. destruct W as (H & _). exfalso. auto.
Qed.
(** Each type of the table is in the order of the MED files. *)
Lemma medorder t k : GetCellModel t = Ok k -> t <> NORM_ERROR -> t ∈ MEDMEM_ORDER.
Proof.
  unfold GetCellModel. destruct (List.find _ _) as [c|] eqn:E; [|done]. intros _ Hn. apply List.find_some in E as [Hin He].
  assert (H : forall c, In c models -> cm_type c <> NORM_ERROR -> cm_type c ∈ MEDMEM_ORDER). { intros d Hd. intros Hne. cbn in Hd. repeat destruct Hd as [<-|Hd]; try (apply elem_of_list_In; cbn; tauto); try done. }
  assert (t = cm_type c) as -> by lia. apply H; done.
Qed.

Lemma sort_ok m cells : stores m cells -> (forall t, t ∈ kinds cells -> t ∈ MEDMEM_ORDER) ->
  exists m' k sel, sortCellsInMEDFileFrmt m = Ok (m', k) /\ stores m' sel /\ typed m' sel /\ um_dim m' = um_dim m /\ um_coords m' = um_coords m /\ moved cells sel k /\ contiguous (kinds sel) /\ in_order MEDMEM_ORDER (kinds sel).
Proof.
  intros Hs Hin. destruct (renumArr_ok m cells MEDMEM_ORDER Hs Hin) as (k & E & m' & sel & R1 & R). destruct (stores_get m cells Hs) as (conn & connI & Ec & EI & _). exists m', k, sel.
  unfold sortCellsInMEDFileFrmt, checkConnectivityFullyDefined, getRenumArrForMEDFileFrmt. rewrite Ec, EI, E. cbn [bind]. rewrite R1. done.
Qed.

(** * rearrange2ConsecutiveCellTypes *)
Lemma whileM_partial {S} (P : S -> Prop) fuel cond body s : P s -> (forall s, P s -> exists b, cond s = Ok b /\ (b = true -> exists s', body s = Ok s' /\ P s')) ->
  whileM fuel cond body s = Fuel \/ exists s', whileM fuel cond body s = Ok s' /\ P s' /\ cond s' = Ok false.
Proof.
  intros H0 Hstep. revert s H0. induction fuel as [|f IH]; intros s H0; [tauto|]. cbn [whileM]. destruct (Hstep s H0) as (b & Hc & Hb). rewrite Hc. cbn [bind]. destruct b; [|right; eauto]. destruct Hb as (s' & -> & Hs'); [done|]. cbn [bind]. apply IH. done.
Qed.
Lemma whileM_stop {S} fuel cond body (s : S) : whileM fuel cond body s = Fuel \/ whileM fuel cond body s <> Fuel.
Proof. destruct (whileM fuel cond body s); [right|right|right|left]; done. Qed.
Lemma runs_expand g : proper_runs g -> runs (expand g) = g.
Proof.
  induction g as [|(x, n) g IH]; [done|]. cbn [proper_runs]. intros (Hn & Hd & Hp). rewrite expand_cons.
  assert (H : forall k, (0 < k)%nat -> runs (replicate k x ++ expand g) = (x, Z.of_nat k) :: g).
  { intros k Hk. induction k as [|k IHk]; [lia|]. cbn [replicate]. rewrite <- app_comm_cons, runs_cons. destruct (decide (k = O)) as [->|].
    - cbn [replicate app]. rewrite IH by done. destruct g as [|(y, q) g]; [done|]. replace (x =? y) with false by lia. done.
    - rewrite IHk by lia. rewrite Z.eqb_refl. f_equal. f_equal. lia. }
  rewrite H by lia. f_equal. f_equal. lia.
Qed.
Lemma asc_nodup l : ascending l -> NoDup l.
Proof. induction l as [|x l IH]; [constructor|]. cbn [ascending]. intros [H1 H2]. constructor; [|auto]. intros H. specialize (H1 x H). lia. Qed.
Lemma typesOf_kinds cells t : t ∈ typesOf cells <-> t ∈ kinds cells.
Proof. rewrite (proj2 (typesOf_ok cells)). unfold kinds. rewrite elem_of_list_fmap. split; intros (c & H1 & H2); exists c; done. Qed.
(** Distinct types among those of the cells are all of them when they are as many. *)
Lemma all_types (a : list Z) (b : list Z) : NoDup a -> NoDup b -> (forall t, t ∈ a -> t ∈ b) -> zlen a <= zlen b /\ (zlen a = zlen b <-> forall t, t ∈ b -> t ∈ a).
Proof.
  intros Ha Hb Hin. assert (Hsub : a ⊆+ b) by (apply NoDup_submseteq; done). pose proof (submseteq_length _ _ Hsub). split; [unfold zlen; lia|]. split.
  - intros Hl t Ht. assert (a ≡ₚ b) as Hp by (apply submseteq_Permutation_length_eq; [unfold zlen in Hl; lia|done]). rewrite Hp. done.
  - intros H'. assert (Hsub' : b ⊆+ a) by (apply NoDup_submseteq; done). pose proof (submseteq_length _ _ Hsub'). unfold zlen. lia.
Qed.
Definition step1 conn connI nb : Z * list Z -> res (Z * list Z) := fun '(i, types) =>
      let* curType := typeAt conn connI i in
      if find_if (fun x => x =? curType) types =? zlen types then
        let* j := findOther conn connI (i + 1) nb curType in
        Ok (j, types ++ [curType])
      else Ok (i, types).
Definition cond1 (nb N : Z) : Z * list Z -> res bool := fun '(i, types) => Ok (negb (i =? nb) && negb (zlen types =? N)).
Section Loop.
Variables (cells : list cell) (conn connI : list Z).
Hypothesis Hsky : skyline (pk <$> cells) conn connI.
Let l := kinds cells.
Let N := zlen (typesOf cells).
Definition reached (s : Z * list Z) : Prop := exists pre post, runs l = pre ++ post /\ s = (size pre, pre.*1) /\ NoDup pre.*1.
Lemma pre_types pre post : runs l = pre ++ post -> NoDup pre.*1 -> zlen pre.*1 <= N /\ (zlen pre.*1 = N <-> forall t, t ∈ l -> t ∈ pre.*1).
Proof.
  intros E Hn. destruct (all_types pre.*1 (typesOf cells) Hn) as [H1 H2]; [apply asc_nodup, typesOf_ok| |].
  - intros t Ht. apply typesOf_kinds, heads_elem. fold l. rewrite E, fmap_app. apply elem_of_app. tauto.
  - split; [done|]. unfold N. rewrite H2. split; intros H t Ht; apply H; apply typesOf_kinds; done.
Qed.
Lemma step1_reached s : reached s -> cond1 (zlen cells) N s = Ok true -> exists pre t n post, runs l = pre ++ (t, n) :: post /\ s = (size pre, pre.*1) /\ NoDup pre.*1 /\ zlen pre.*1 <> N /\
  step1 conn connI (zlen cells) s = Ok (if decide (t ∈ pre.*1) then s else (size (pre ++ [(t, n)]), (pre ++ [(t, n)]).*1)).
Proof.
  intros (pre & post & E & -> & Hn). unfold cond1. intros [= Hc]. apply andb_prop in Hc as [Hc1 Hc2]. destruct post as [|(t, n) post].
  { exfalso. rewrite app_nil_r in E. destruct (runs_ok l) as [Hex _]. rewrite <- E in Hc1. unfold size in Hc1. rewrite Hex in Hc1. unfold l in Hc1. rewrite zlen_kinds in Hc1. lia. }
  exists pre, t, n, post. split; [done|]. split; [done|]. split; [done|]. split; [lia|]. unfold step1. rewrite (run_type _ _ _ Hsky _ _ _ _ E). cbn [bind]. destruct (findpos pre.*1 t) as (P1 & P2 & P3). destruct (decide (t ∈ pre.*1)) as [Hin|Hin].
  - destruct (Z.eqb_spec (find_if (fun x => x =? t) pre.*1) (zlen pre.*1)) as [Ef|]; [|done]. apply P1 in Ef. done.
  - apply P1 in Hin as ->. rewrite Z.eqb_refl. rewrite (findOther_ok _ _ _ Hsky _ _ _ _ E). cbn [bind]. pose proof (run_pos _ _ _ _ _ E). rewrite size_app, size_one, fmap_app by lia. done.
Qed.
Lemma reached_step s : reached s -> exists b, cond1 (zlen cells) N s = Ok b /\ (b = true -> exists s', step1 conn connI (zlen cells) s = Ok s' /\ reached s').
Proof.
  intros Hr. destruct s as [i types]. eexists. split; [reflexivity|]. intros Hb. destruct (step1_reached (i, types) Hr) as (pre & t & n & post & E & Es & Hn & HN & ->); [unfold cond1; rewrite Hb; done|]. eexists. split; [reflexivity|]. destruct (decide (t ∈ pre.*1)); [done|].
  exists (pre ++ [(t, n)]), post. rewrite <- app_assoc. split; [done|]. split; [done|]. rewrite fmap_app. apply NoDup_app. split; [done|]. cbn. split; [|apply NoDup_singleton]. intros u Hu Ht. apply elem_of_list_singleton in Ht. congruence.
Qed.
Lemma expand_contig pre : proper_runs pre -> NoDup pre.*1 -> contiguous (expand pre).
Proof. intros Hp Hn. apply contig_runs. rewrite runs_expand by done. done. Qed.
(** When the loop ends, the numbering of the types is [firsts]. *)
Lemma end_reached s : reached s -> cond1 (zlen cells) N s = Ok false -> s.2 = firsts l /\ early l.
Proof.
  intros (pre & post & E & -> & Hn). unfold cond1. intros [= Hc]. cbn [snd].
  destruct (runs_ok l) as [Hex Hpr]. pose proof Hpr as Hpre. rewrite E in Hpre. apply proper_app in Hpre as [Hpre _]. assert (Esplit : l = expand pre ++ expand post) by (rewrite <- expand_app, <- E; done).
  assert (Hall : forall t, t ∈ l -> t ∈ pre.*1).
  { destruct (Z.eqb_spec (size pre) (zlen cells)) as [Hsz|Hsz].
    - intros t Ht. rewrite (in_expand pre t Hpre). rewrite Esplit in Ht. apply elem_of_app in Ht as [Ht|Ht]; [done|]. exfalso. assert (zlen l = zlen cells) as Hl by apply zlen_kinds. rewrite Esplit, zlen_app in Hl. unfold size in Hsz. assert (expand post = []) as Hnil by (apply SkyProofs3.zlen_0; lia). rewrite Hnil in Ht. apply elem_of_nil in Ht. done.
    - apply (pre_types pre post E Hn). lia. }
  split.
  - rewrite Esplit. pose proof (expand_contig pre Hpre Hn) as Hcg. apply firsts_contig in Hcg as Hf. rewrite runs_expand in Hf by done. rewrite <- Hf.
    assert (Hrest : forall t, t ∈ expand post -> t ∈ expand pre). { intros t Ht. apply (in_expand pre t Hpre), Hall. rewrite Esplit. apply elem_of_app. tauto. }
    clear - Hrest. revert Hrest. generalize (expand post) as b. generalize (expand pre) as a.
    assert (H : forall a b, firsts (a ++ b) = firsts a ++ List.filter (fun y => bool_decide (y ∉ a)) (firsts b)).
    { induction a as [|x a IH]; intros b; cbn [app firsts]; [rewrite filter_all; [done|]; intros y _; apply bool_decide_true; intros Hy; apply elem_of_nil in Hy; done|]. rewrite IH, List.filter_app. f_equal. f_equal.
      induction (firsts b) as [|y q IHq]; [done|]. cbn [List.filter]. rewrite <- IHq. destruct (bool_decide_reflect (y ∉ a)) as [Ha|Ha].
      - cbn [List.filter]. destruct (Z.eqb_spec y x) as [->|Hyx]; cbn [negb]; [rewrite bool_decide_false; [done|]; rewrite elem_of_cons; tauto|]. rewrite bool_decide_true; [done|]. rewrite elem_of_cons. tauto.
      - rewrite bool_decide_false; [done|]. rewrite elem_of_cons. tauto. }
    intros a b Hr. rewrite H. assert (List.filter (fun y => bool_decide (y ∉ a)) (firsts b) = []) as ->; [|rewrite app_nil_r; done].
    assert (Hb : forall y, y ∈ firsts b -> y ∈ a) by (intros y Hy; apply Hr, firsts_elem; done). induction (firsts b) as [|y q IHq]; [done|]. cbn [List.filter]. rewrite bool_decide_false; [apply IHq; intros z Hz; apply Hb, elem_of_cons; tauto|]. intros Hy. apply Hy, Hb, elem_of_cons. tauto.
  - intros i s t Hs Ht Hst Hin u Hu. pose proof (zlook_Some_lt _ _ _ Ht) as Hi. pose proof (zlook_Some_lt _ _ _ Hs) as Hi1. destruct (Z.lt_ge_cases i (size pre)) as [L|L].
    + exfalso. apply elem_of_zlook in Hin as [j Hj]. pose proof (zlook_Some_lt _ _ _ Hj) as Hjl. rewrite zlen_take in Hjl. rewrite zlook_take in Hj by lia.
      assert (Hat : forall k, k < size pre -> expand pre @ k = l @ k). { intros k Hk. rewrite Esplit. unfold size in Hk. destruct (Z.lt_ge_cases k 0) as [H0|H0]; [assert (expand pre @ k = None) as -> by (destruct (expand pre @ k) eqn:Ek; [apply zlook_Some_lt in Ek; lia|done]); destruct ((expand pre ++ expand post) @ k) eqn:Ek; [apply zlook_Some_lt in Ek; lia|done]|]. rewrite zlook_app_l by lia. done. }
      pose proof (expand_contig pre Hpre Hn) as Hcg. destruct (decide (j = i - 1)) as [->|]; [congruence|]. specialize (Hcg j (i - 1) i t ltac:(lia)). rewrite !Hat in Hcg by lia. specialize (Hcg Hj Ht). congruence.
    + apply Hall in Hu. rewrite (in_expand pre u Hpre) in Hu. apply elem_of_zlook in Hu as [k Hk]. pose proof (zlook_Some_lt _ _ _ Hk) as Hkl. apply (zlook_elem _ k). unfold size in L. rewrite zlook_take by lia. rewrite Esplit. rewrite zlook_app_l by lia. done.
Qed.
Lemma loop_fuel fuel : whileM fuel (cond1 (zlen cells) N) (step1 conn connI (zlen cells)) (0, []) = Fuel \/ (whileM fuel (cond1 (zlen cells) N) (step1 conn connI (zlen cells)) (0, []) = Ok (fst (match whileM fuel (cond1 (zlen cells) N) (step1 conn connI (zlen cells)) (0, []) with Ok s => s | _ => (0, []) end), firsts l) /\ early l).
Proof.
  destruct (whileM_partial reached fuel (cond1 (zlen cells) N) (step1 conn connI (zlen cells)) (0, [])) as [H|(s' & -> & Hr & Hc)]; [|apply reached_step|tauto|].
  - exists [], (runs l). split; [done|]. split; [done|]. constructor.
  - right. destruct (end_reached s' Hr Hc) as [H1 H2]. split; [|done]. rewrite <- H1. destruct s'; done.
Qed.
Lemma loop_ends fuel : early l -> (length l < fuel)%nat -> exists s, whileM fuel (cond1 (zlen cells) N) (step1 conn connI (zlen cells)) (0, []) = Ok s /\ s.2 = firsts l.
Proof.
  intros He Hf. apply wp_ok. apply (wp_whileM reached (fun s => Z.to_nat (zlen l - s.1))).
  - exists [], (runs l). split; [done|]. split; [done|]. constructor.
  - cbn [fst]. unfold zlen. lia.
  - intros s Hr. destruct (reached_step s Hr) as (b & Hc & Hb). rewrite Hc. cbn [wp]. destruct b; [|apply end_reached; done]. destruct (Hb eq_refl) as (s' & Es' & Hr'). rewrite Es'. cbn [wp]. split; [done|].
    destruct (step1_reached s Hr Hc) as (pre & t & n & post & E & -> & Hn & HN & E2). rewrite E2 in Es'. destruct (decide (t ∈ pre.*1)) as [Hin|Hin].
    + exfalso. apply HN. apply (pre_types pre _ E Hn). intros u Hu. assert (Hne : pre <> []). { intros ->. apply elem_of_nil in Hin. done. } destruct (run_before _ _ _ _ _ E Hne) as (x & Hx & Hxt).
      destruct (runs_ok l) as [_ Hpr]. rewrite E in Hpr. apply proper_app in Hpr as [Hpr _]. pose proof (run_pos _ _ _ _ _ E).
      specialize (He (size pre) x t Hx ltac:(apply (run_in _ _ _ _ _ E); lia) Hxt). rewrite (run_take _ _ _ _ _ E) in He. rewrite <- !(in_expand pre _ Hpr) in He. specialize (He Hin u Hu). rewrite <- (in_expand pre _ Hpr) in He. done.
    + injection Es' as <-. cbn [fst]. pose proof (run_pos _ _ _ _ _ E). pose proof (run_size _ _ _ _ _ E). rewrite size_app, size_one by lia. lia.
Qed.
End Loop.
