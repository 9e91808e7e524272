From Coq Require Import ZifyBool ZifyNat.
From Verif Require Import Base DataArray ArrLib SlicesModel SlicesSpec SlicesProofs SetModel SetSpec.

Definition row_written {A} (nc t : Z) (C : list Z) (g : Z -> option A) (l l' : list A) : Prop :=
  zlen l' = zlen l /\
  (forall j c, C @ j = Some c -> last_at C j -> l' @ (t * nc + c) = g j) /\
  (forall p, (forall c, c ∈ C -> p <> t * nc + c) -> l' @ p = l @ p).
Lemma last_at_cons x l i : 0 <= i -> last_at (x :: l) (i + 1) <-> last_at l i.
Proof.
  intros Hi. split; intros H k Hk.
  - specialize (H (k + 1) ltac:(lia)). rewrite !zlook_cons in H. replace (k + 1 =? 0) with false in H by lia. replace (i + 1 =? 0) with false in H by lia.
    replace (k + 1 - 1) with k in H by lia. replace (i + 1 - 1) with i in H by lia. done.
  - rewrite !zlook_cons. replace (k =? 0) with false by lia. replace (i + 1 =? 0) with false by lia. replace (i + 1 - 1) with i by lia. apply H. lia.
Qed.
Lemma last_at_head x l : last_at (x :: l) 0 -> x ∉ l.
Proof.
  intros H [k Hk]%elem_of_zlook. pose proof (zlook_Some_lt _ _ _ Hk). apply (H (k + 1)); [lia|]. rewrite !zlook_cons. replace (k + 1 =? 0) with false by lia. replace (k + 1 - 1) with k by lia. done.
Qed.
Lemma row_nil {A} nc t (g : Z -> option A) l : row_written nc t [] g l l.
Proof. split; [done|]. split; [intros j c; rewrite zlook_nil; done|done]. Qed.
Lemma row_cons {A} nc t c C (g : Z -> option A) l x l' : 0 <= t * nc + c < zlen l -> g 0 = Some x ->
  row_written nc t C (fun j => g (j + 1)) (zset l (t * nc + c) x) l' -> row_written nc t (c :: C) g l l'.
Proof.
  intros Hp Hg (H1 & H2 & H3). rewrite zlen_zset in H1. split; [done|]. split.
  - intros j d Hj Hl. rewrite zlook_cons in Hj. destruct (Z.eqb_spec j 0) as [->|].
    + injection Hj as <-. pose proof (last_at_head _ _ Hl). rewrite H3 by (intros e He; destruct (decide (e = c)) as [->|]; [done|lia]).
      rewrite zlook_zset by lia. rewrite Z.eqb_refl. done.
    + pose proof (zlook_Some_lt _ _ _ Hj). rewrite (H2 (j - 1) d Hj); [f_equal; lia|]. apply (last_at_cons c); [lia|]. replace (j - 1 + 1) with j by lia. done.
  - intros p Hn. rewrite H3 by (intros e He; apply Hn; by apply elem_of_list_further). rewrite zlook_zset by lia.
    destruct (Z.eqb_spec p (t * nc + c)); [|done]. exfalso. apply (Hn c); [apply elem_of_list_here|done].
Qed.
Lemma written_nil {A} nc C (f : Z -> Z -> option A) l : written nc [] C f l l.
Proof. split; [done|]. split; [intros i j t c; rewrite zlook_nil; done|done]. Qed.
Lemma written_nocol {A} nc T (f : Z -> Z -> option A) l : written nc T [] f l l.
Proof. split; [done|]. split; [intros i j t c _; rewrite zlook_nil; done|done]. Qed.
Lemma written_cons {A} nc t T C (f : Z -> Z -> option A) l l1 l2 : ids_in C nc -> row_written nc t C (f 0) l l1 -> written nc T C (fun i => f (i + 1)) l1 l2 -> written nc (t :: T) C f l l2.
Proof.
  intros HC (R1 & R2 & R3) (W1 & W2 & W3). split; [lia|]. split.
  - intros i j t' c Hi Hj Li Lj. rewrite zlook_cons in Hi. destruct (Z.eqb_spec i 0) as [->|].
    + injection Hi as <-. pose proof (last_at_head _ _ Li). rewrite W3; [by apply R2|apply HC, elem_of_zlook; by exists j|tauto].
    + pose proof (zlook_Some_lt _ _ _ Hi). rewrite (W2 (i - 1) j t' c Hi Hj); [f_equal; lia| |done]. apply (last_at_cons t); [lia|]. replace (i - 1 + 1) with i by lia. done.
  - intros t' c Hc Hn. rewrite W3; [|done|]. 2:{ intros [? ?]. apply Hn. split; [by apply elem_of_list_further|done]. }
    apply R3. intros c' Hc' E. pose proof (HC c' Hc'). assert (t' = t) by nia. subst. assert (c = c') by lia. subst. apply Hn. split; [apply elem_of_list_here|done].
Qed.
Lemma assign_ok {A} p (x : A) l : 0 <= p < zlen l -> assign p (Ok x) l = (Ok tt, zset l p x).
Proof. intros H. unfold assign. cbn [bind]. rewrite wr_ok by done. done. Qed.

(** One row. *)
Lemma row_ok {A} (v : list A) nc t (b : Z) (off γ : Z -> Z) cols early k0 (bad : bool) l : bad = false \/ early = true ->
  (forall c, b + off c = t * nc + γ c) -> ids_in (γ <$> cols) nc -> 0 <= t -> t * nc + nc <= zlen l -> 0 <= k0 -> k0 + zlen cols <= zlen v ->
  exists l', each (fun c '(k, l) => whenE (negb early && bad) (k, l) (let '(o, l) := assign (b + off c) (rd v k) l in (o, (k + 1, l)))) cols (k0, l) = (Ok tt, (k0 + zlen cols, l')) /\
    row_written nc t (γ <$> cols) (fun j => v @ (k0 + j)) l l'.
Proof.
  intros Hb Hp. revert k0 l. induction cols as [|c cols IH]; intros k0 l HC Ht Hl Hk Hv.
  - exists l. split; [cbn; by rewrite Z.add_0_r|apply row_nil].
  - rewrite zlen_cons in Hv |- *. pose proof (zlen_nonneg cols). assert (0 <= γ c < nc) by (apply HC; rewrite fmap_cons; apply elem_of_list_here).
    destruct (zlook_lt v k0) as [x Hx]; [lia|]. assert (0 <= t * nc + γ c < zlen l) by nia. cbn [each]. unfold whenE at 1.
    replace (negb early && bad) with false by (destruct Hb; subst; cbn; rewrite ?andb_false_r; done).
    rewrite (rd_ok _ _ x Hx), Hp, assign_ok by done.
    destruct (IH (k0 + 1) (zset l (t * nc + γ c) x)) as (l' & E & W); [intros y Hy; apply HC; rewrite fmap_cons; by apply elem_of_list_further|done|by rewrite zlen_zset|lia|lia|].
    replace (negb early && bad) with false in E by (destruct Hb; subst; cbn; rewrite ?andb_false_r; done).
    exists l'. rewrite E. split; [f_equal; f_equal; lia|]. rewrite fmap_cons. apply (row_cons _ _ _ _ _ _ x); [done|by rewrite Z.add_0_r|]. destruct W as (W1 & W2 & W3). split; [done|]. split; [|done].
    intros j d Hj Lj. rewrite (W2 j d Hj Lj). f_equal. lia.
Qed.
Definition srcAt {A} (v : list A) (tech : bool) (n k0 i j : Z) : option A := if tech then v @ (k0 + i * n + j) else v @ j.
Lemma outOfRange_spec n t : outOfRange n t = false <-> 0 <= t < n.
Proof. unfold outOfRange. lia. Qed.
Lemma first_out_here n t T : ~ 0 <= t < n -> first_out (t :: T) n 0.
Proof. intros H. split; [exists t; done|]. intros i x Hi E. pose proof (zlook_Some_lt _ _ _ E). lia. Qed.
Lemma first_out_cons n t T k : 0 <= t < n -> first_out T n k -> 0 <= k /\ first_out (t :: T) n (k + 1).
Proof.
  intros H [(x & E & Hx) Hk]. pose proof (zlook_Some_lt _ _ _ E). split; [lia|]. split.
  - exists x. rewrite zlook_cons. replace (k + 1 =? 0) with false by lia. replace (k + 1 - 1) with k by lia. done.
  - intros i y Hi. rewrite zlook_cons. destruct (Z.eqb_spec i 0); [by intros [= <-]|]. apply Hk. lia.
Qed.
Lemma cells_ok {A} (v : list A) s tech early bad base off (τ γ : Z -> Z) rows cols nt nc (l : list A) :
  (forall l, srcVals s l = v) -> (forall r c, base r + off c = τ r * nc + γ c) -> (forall r, r ∈ rows -> bad r = outOfRange nt (τ r)) ->
  ids_in (γ <$> cols) nc -> 0 <= nc -> zlen l = nt * nc ->
  forall k0, 0 <= k0 -> (tech = true -> k0 + zlen rows * zlen cols <= zlen v) -> (tech = false -> rows <> [] -> zlen cols <= zlen v) ->
  exists r k' l', each (fun r '(k0, l) =>
    whenE (early && bad r) (k0, l)
    (each (fun c '(k, l) =>
      whenE (negb early && bad r) (k, l)
      (let '(o, l) := assign (base r + off c) (rd (srcVals s l) k) l in (o, (k + 1, l)))) cols (if tech then k0 else 0, l))) rows (k0, l) = (r, (k', l')) /\
    (ids_in (τ <$> rows) nt \/ (early = false /\ cols = []) -> r = Ok tt /\ written nc (τ <$> rows) (γ <$> cols) (srcAt v tech (zlen cols) k0) l l') /\
    (~ (ids_in (τ <$> rows) nt \/ (early = false /\ cols = [])) -> r = Throw /\
      exists k, first_out (τ <$> rows) nt k /\ written nc (take (Z.to_nat k) (τ <$> rows)) (γ <$> cols) (srcAt v tech (zlen cols) k0) l l').
Proof.
  intros Hs Hp Hbad HC Hnc. revert l. induction rows as [|r rows IH]; intros l Hl k0 Hk Ht Hf.
  - exists (Ok tt), k0, l. split; [done|]. split; [intros _; split; [done|apply written_nil]|]. intros Hn. exfalso. apply Hn. left. intros x Hx. by apply elem_of_nil in Hx.
  - assert (Hb : bad r = outOfRange nt (τ r)) by apply Hbad, elem_of_list_here. rewrite zlen_cons in Ht. pose proof (zlen_nonneg rows). pose proof (zlen_nonneg cols).
    cbn [each]. rewrite fmap_cons. destruct (outOfRange nt (τ r)) eqn:Eo.
    + assert (N : ~ 0 <= τ r < nt) by (intros N; apply outOfRange_spec in N; congruence). assert (NI : ~ ids_in (τ r :: (τ <$> rows)) nt) by (intros K; apply N, K, elem_of_list_here).
      rewrite Hb. destruct early; cbn [andb negb]; unfold whenE at 1.
      * exists Throw, k0, l. split; [done|]. split; [intros [?|[? ?]]; done|]. intros _. split; [done|]. exists 0. split; [by apply first_out_here|]. cbn [Z.to_nat take]. apply written_nil.
      * destruct cols as [|c cols].
        { cbn [each].
          match goal with |- context [each ?f rows ?st] => assert (Q : forall rows k, each f rows (k, l) = (Ok tt, (if decide (rows = []) then k else if tech then k else 0, l))) end.
          { clear. induction rows as [|x rows IH]; intros k; [done|]. cbn [each]. unfold whenE. rewrite IH. destruct (decide (rows = [])), tech; done. }
          rewrite Q. eexists _, _, l. split; [reflexivity|]. split; [intros _; split; [done|apply written_nocol]|]. intros K. exfalso. apply K. by right. }
        cbn [each]. unfold whenE at 1. exists Throw, (if tech then k0 else 0), l. split; [done|]. split; [intros [?|[? ?]]; done|]. intros _. split; [done|]. exists 0. split; [by apply first_out_here|]. cbn [Z.to_nat take]. apply written_nil.
    + apply outOfRange_spec in Eo. rewrite Hb. replace (early && false) with false by (by rewrite andb_false_r). unfold whenE at 1.
      destruct (row_ok v nc (τ r) (base r) off γ cols early (if tech then k0 else 0) false l) as (l1 & E1 & W1); [by left|intros c; apply Hp|done|lia|nia|destruct tech; lia|destruct tech; [nia|specialize (Hf eq_refl ltac:(done)); lia]|].
      assert (E1' : each (fun c '(k, l) => whenE (negb early && bad r) (k, l) (let '(o, l) := assign (base r + off c) (rd (srcVals s l) k) l in (o, (k + 1, l)))) cols (if tech then k0 else 0, l) = (Ok tt, ((if tech then k0 else 0) + zlen cols, l1))).
      { rewrite <- E1. rewrite Hb. clear -Hs. generalize (if tech then k0 else 0). revert l. induction cols as [|c cols IHc]; intros l k; [done|]. cbn [each]. rewrite Hs. destruct (whenE _ _ _) as [[] [? ?]]; try done; apply IHc. }
      rewrite Hb in E1'. rewrite E1'.
      assert (L1 : zlen l1 = nt * nc) by (destruct W1; lia).
      destruct (IH (fun r' Hr => Hbad r' (elem_of_list_further _ _ _ Hr)) l1 L1 ((if tech then k0 else 0) + zlen cols)) as (o & k' & l2 & E2 & G1 & G2); [destruct tech; lia|intros ->; specialize (Ht eq_refl); nia|intros E Hr; by apply Hf|].
      exists o, k', l2. rewrite E2. split; [done|].
      assert (WW : forall T, written nc T (γ <$> cols) (srcAt v tech (zlen cols) ((if tech then k0 else 0) + zlen cols)) l1 l2 -> written nc (τ r :: T) (γ <$> cols) (srcAt v tech (zlen cols) k0) l l2).
      { intros T (V1 & V2 & V3). apply (written_cons _ _ _ _ _ _ l1); [done|..].
        - destruct W1 as (Q1 & Q2 & Q3). split; [done|]. split; [|done]. intros j c Hj Lj. rewrite (Q2 j c Hj Lj). unfold srcAt. destruct tech; f_equal; lia.
        - split; [done|]. split; [|done]. intros i j t c Hi Hj Li Lj. rewrite (V2 i j t c Hi Hj Li Lj). unfold srcAt. destruct tech; f_equal; lia. }
      assert (GG : ids_in (τ r :: (τ <$> rows)) nt <-> ids_in (τ <$> rows) nt).
      { split; intros K x Hx; [apply K; by apply elem_of_list_further|]. apply elem_of_cons in Hx as [->|Hx]; [done|by apply K]. }
      rewrite GG. split.
      * intros Hg. destruct (G1 Hg) as [-> V]. split; [done|by apply WW].
      * intros Hg. destruct (G2 Hg) as [-> (k & F & V)]. split; [done|]. destruct (first_out_cons nt (τ r) _ k Eo F) as [Hk0 F']. exists (k + 1). split; [done|].
        replace (Z.to_nat (k + 1)) with (S (Z.to_nat k)) by lia. cbn [take]. by apply WW.
Qed.

(** ** The checks. *)
Lemma bes_good b e s n T : 0 <= n -> is_range_list b e s T ->
  (slice_in b e s n /\ GetNumberOfItemGivenBES b e s = Ok (zlen T) /\ outOfRangeEx n b e = false /\ T = (fun i => b + i * s) <$> seqZ 0 (zlen T) /\ ids_in T n) \/
  (~ slice_in b e s n /\ (GetNumberOfItemGivenBES b e s = Throw \/ (exists m, GetNumberOfItemGivenBES b e s = Ok m) /\ outOfRangeEx n b e = true)).
Proof.
  intros Hn HT. unfold slice_in. destruct (decide (0 <= b <= e /\ e <= n /\ (b < e -> 0 < s))) as [G|G].
  - left. destruct G as (G1 & G2 & G3). assert (H : b = e \/ (b < e /\ 0 < s)) by lia. split; [done|]. split; [by apply bes_len|]. split; [unfold outOfRangeEx; lia|]. split.
    + apply zlook_ext_lt; [rewrite zlen_fmap, zlen_seqZ; pose proof (zlen_nonneg T); lia|]. intros k Hk. rewrite zlook_fmap, zlook_seqZ by lia. destruct (zlook_lt T k) as [v E]; [lia|].
      rewrite E. apply HT in E as (? & -> & ?). cbn. rewrite Z.add_0_l. done.
    + intros x [k E]%elem_of_zlook. apply HT in E as (? & -> & [[? ?]|[? ?]]); nia.
  - right. split; [done|]. unfold GetNumberOfItemGivenBES, ifthrow. destruct (Z.ltb_spec e b); [by left|]. destruct (Z.eqb_spec e b).
    + right. split; [by eexists|]. unfold outOfRangeEx. lia.
    + destruct (Z.leb_spec s 0); [by left|]. right. split; [by eexists|]. unfold outOfRangeEx. lia.
Qed.
Lemma technique_ok {A} (a : da A) n k strict : (source_fits a n k strict /\ technique a n k strict = Ok (zlen (da_vals a) =? n * k)) \/ (~ source_fits a n k strict /\ technique a n k strict = Throw).
Proof.
  unfold source_fits, technique, ifthrow. destruct (zlen (da_vals a) =? n * k).
  - destruct strict; cbn [andb]; [|left; split; done]. destruct (decide (da_nt a = n /\ da_nc a = k)) as [[H1 H2]|N]; [left|right]; (split; [tauto|]).
    + replace (negb _ || negb _) with false by lia. done.
    + replace (negb _ || negb _) with true by lia. done.
  - destruct (decide (da_nt a = 1 /\ da_nc a = k)) as [[H1 H2]|N]; [left|right]; (split; [tauto|]).
    + replace (negb _ || negb _) with false by lia. done.
    + replace (negb _ || negb _) with true by lia. done.
Qed.
Lemma comps_good n l : (ids_in l n /\ existsb (outOfRange n) l = false) \/ (~ ids_in l n /\ existsb (outOfRange n) l = true).
Proof.
  destruct (existsb (outOfRange n) l) eqn:E; [right|left]; (split; [|done]).
  - apply existsb_exists in E as (x & Hx & E). intros H. apply elem_of_list_In in Hx. apply H, outOfRange_spec in Hx. congruence.
  - intros x Hx. apply outOfRange_spec. destruct (outOfRange n x) eqn:B; [|done]. exfalso. assert (existsb (outOfRange n) l = true); [|congruence]. apply existsb_exists. exists x. split; [by apply elem_of_list_In|done].
Qed.
Lemma fits_len {A} (a : da A) n k strict : da_wf a -> source_fits a n k strict ->
  (zlen (da_vals a) =? n * k = true -> 0 + n * k <= zlen (da_vals a)) /\ (zlen (da_vals a) =? n * k = false -> k <= zlen (da_vals a)).
Proof. intros W F. pose proof (da_wf_len a W) as (L & _). unfold source_fits in F. destruct (zlen (da_vals a) =? n * k) eqn:E; split; intros; try done; [lia|]. destruct F as [F1 F2]. rewrite F1, F2 in L. lia. Qed.
Lemma srcAt_value {A} (a : da A) n k i j : srcAt (da_vals a) (zlen (da_vals a) =? n * k) k 0 i j = source_value a n k i j.
Proof. unfold srcAt, source_value. destruct (_ =? _); f_equal; lia. Qed.
Lemma written_ext {A} nc T C (f g : Z -> Z -> option A) l l' : (forall i j, f i j = g i j) -> written nc T C f l l' -> written nc T C g l l'.
Proof. intros E (H1 & H2 & H3). split; [done|]. split; [|done]. intros i j t c Hi Hj Li Lj. rewrite <- E. by apply (H2 i j t c). Qed.
Lemma sets_throw {A} stop (d : da A) good T C (f : Z -> Z -> option A) : ~ good -> sets stop d good T C f (Throw, d).
Proof. intros H. split; [done|]. split; [done|]. split; [done|]. intros _. split; [done|by left]. Qed.
Lemma da_eta {A} (d : da A) : DA (da_alloc d) (da_nc d) (da_vals d) = d.
Proof. by destruct d. Qed.

Lemma id_fmap (l : list Z) : (fun z => z) <$> l = l.
Proof. induction l as [|x l IH]; [done|]. rewrite fmap_cons, IH. done. Qed.
Lemma set1_ok {A} (d a : da A) bT eT sT bC eC sC strict T C : da_wf d -> da_wf a -> is_range_list bT eT sT T -> is_range_list bC eC sC C ->
  sets nowhere d (usable d a /\ slice_in bT eT sT (da_nt d) /\ slice_in bC eC sC (da_nc d) /\ source_fits a (zlen T) (zlen C) strict) T C
    (source_value a (zlen T) (zlen C)) (setPartOfValues1 d (Other a) bT eT sT bC eC sC strict).
Proof.
  intros Wd Wa HT HC. pose proof (da_wf_len d Wd) as (L & N1 & N2). unfold setPartOfValues1. cbv zeta. cbn [isNull srcArr]. unfold checked at 1.
  destruct (da_alloc d) eqn:Ad; [|apply sets_throw; unfold usable; rewrite Ad; intros [[? ?] _]; done]. unfold checked at 1; cbn [negb].
  destruct (da_alloc a) eqn:Aa; [|apply sets_throw; unfold usable; rewrite Aa; intros [[? ?] _]; done]. unfold checked at 1; cbn [negb].
  destruct (bes_good bT eT sT (da_nt d) T N1 HT) as [(G1 & E1 & O1 & F1 & I1)|(G1 & [E1|[[m1 E1] O1]])]; rewrite E1; cbn [onOk]; [|apply sets_throw; tauto|..].
  all: destruct (bes_good bC eC sC (da_nc d) C N2 HC) as [(G2 & E2 & O2 & F2 & I2)|(G2 & [E2|[[m2 E2] O2]])]; rewrite E2; cbn [onOk]; [|apply sets_throw; tauto|..].
  all: rewrite ?O1, ?O2; unfold checked; try (apply sets_throw; tauto).
  destruct (technique_ok a (zlen T) (zlen C) strict) as [[F ->]|[F ->]]; cbn [onOk]; [|apply sets_throw; tauto].
  pose proof (fits_len a _ _ _ Wa F) as [K1 K2]. unfold cells. pose proof (zlen_nonneg T). pose proof (zlen_nonneg C).
  assert (LT : zlen (seqZ 0 (zlen T)) = zlen T) by (rewrite zlen_seqZ; lia). assert (LC : zlen (seqZ 0 (zlen C)) = zlen C) by (rewrite zlen_seqZ; lia).
  edestruct (cells_ok (da_vals a) (Other a) (zlen (da_vals a) =? zlen T * zlen C) false never (fun i => bT * da_nc d + bC + i * (sT * da_nc d)) (fun j => j * sC)
    (fun i => bT + i * sT) (fun j => bC + j * sC) (seqZ 0 (zlen T)) (seqZ 0 (zlen C)) (da_nt d) (da_nc d) (da_vals d)) with (k0 := 0) as (r & k' & l' & E & W & _);
    [done|intros; lia| |by rewrite <- F2|done|done|done|rewrite LT, LC; lia|rewrite LC; auto|].
  { intros i Hi. unfold never. symmetry. apply outOfRange_spec. apply I1. rewrite F1. apply elem_of_list_fmap. eauto. }
  rewrite E. cbn [done2]. destruct W as [-> W]; [left; by rewrite <- F1|]. rewrite <- F1, <- F2, LC in W. unfold ret, sets. split; [done|]. split; [done|]. split.
  - intros _. split; [done|]. cbn [da_vals]. eapply written_ext; [|exact W]. intros i j. apply srcAt_value.
  - intros K. exfalso. apply K. unfold usable. rewrite Ad, Aa. tauto.
Qed.
Lemma set4_ok {A} (d a : da A) bT eT sT C strict T : da_wf d -> da_wf a -> is_range_list bT eT sT T ->
  sets nowhere d (usable d a /\ slice_in bT eT sT (da_nt d) /\ ids_in C (da_nc d) /\ source_fits a (zlen T) (zlen C) strict) T C
    (source_value a (zlen T) (zlen C)) (setPartOfValues4 d (Other a) bT eT sT C strict).
Proof.
  intros Wd Wa HT. pose proof (da_wf_len d Wd) as (L & N1 & N2). unfold setPartOfValues4. cbv zeta. cbn [isNull srcArr]. unfold checked at 1.
  destruct (da_alloc d) eqn:Ad; [|apply sets_throw; unfold usable; rewrite Ad; intros [[? ?] _]; done]. unfold checked at 1; cbn [negb].
  destruct (da_alloc a) eqn:Aa; [|apply sets_throw; unfold usable; rewrite Aa; intros [[? ?] _]; done]. unfold checked at 1; cbn [negb].
  destruct (bes_good bT eT sT (da_nt d) T N1 HT) as [(G1 & E1 & O1 & F1 & I1)|(G1 & [E1|[[m1 E1] O1]])]; rewrite E1; cbn [onOk]; [|apply sets_throw; tauto|].
  all: destruct (comps_good (da_nc d) C) as [[G2 E2]|[G2 E2]]; rewrite E2; unfold checked; [|apply sets_throw; tauto].
  all: rewrite ?O1; try (apply sets_throw; tauto).
  destruct (technique_ok a (zlen T) (zlen C) strict) as [[F ->]|[F ->]]; cbn [onOk]; [|apply sets_throw; tauto].
  pose proof (fits_len a _ _ _ Wa F) as [K1 K2]. unfold cells. pose proof (zlen_nonneg T). pose proof (zlen_nonneg C).
  assert (LT : zlen (seqZ 0 (zlen T)) = zlen T) by (rewrite zlen_seqZ; lia).
  edestruct (cells_ok (da_vals a) (Other a) (zlen (da_vals a) =? zlen T * zlen C) false never (fun i => bT * da_nc d + i * (sT * da_nc d)) (fun z => z)
    (fun i => bT + i * sT) (fun z => z) (seqZ 0 (zlen T)) C (da_nt d) (da_nc d) (da_vals d)) with (k0 := 0) as (r & k' & l' & E & W & _);
    [done|intros; lia| |by rewrite id_fmap|done|done|done|rewrite LT; lia|auto|].
  { intros i Hi. unfold never. symmetry. apply outOfRange_spec. apply I1. rewrite F1. apply elem_of_list_fmap. eauto. }
  rewrite E. cbn [done2]. destruct W as [-> W]; [left; by rewrite <- F1|]. rewrite <- F1, id_fmap in W. unfold ret, sets. split; [done|]. split; [done|]. split.
  - intros _. split; [done|]. cbn [da_vals]. eapply written_ext; [|exact W]. intros i j. apply srcAt_value.
  - intros K. exfalso. apply K. unfold usable. rewrite Ad, Aa. tauto.
Qed.
Lemma set2_ok {A} (d a : da A) T C strict : da_wf d -> da_wf a ->
  sets (first_out T (da_nt d)) d (usable d a /\ ids_in T (da_nt d) /\ ids_in C (da_nc d) /\ source_fits a (zlen T) (zlen C) strict) T C
    (source_value a (zlen T) (zlen C)) (setPartOfValues2 d (Other a) T C strict).
Proof.
  intros Wd Wa. pose proof (da_wf_len d Wd) as (L & N1 & N2). unfold setPartOfValues2. cbv zeta. cbn [isNull srcArr]. unfold checked at 1.
  destruct (da_alloc d) eqn:Ad; [|apply sets_throw; unfold usable; rewrite Ad; intros [[? ?] _]; done]. unfold checked at 1; cbn [negb].
  destruct (da_alloc a) eqn:Aa; [|apply sets_throw; unfold usable; rewrite Aa; intros [[? ?] _]; done]. unfold checked at 1; cbn [negb].
  destruct (comps_good (da_nc d) C) as [[G2 E2]|[G2 E2]]; rewrite E2; unfold checked; [|apply sets_throw; tauto].
  destruct (technique_ok a (zlen T) (zlen C) strict) as [[F ->]|[F ->]]; cbn [onOk]; [|apply sets_throw; tauto].
  pose proof (fits_len a _ _ _ Wa F) as [K1 K2]. unfold cells.
  edestruct (cells_ok (da_vals a) (Other a) (zlen (da_vals a) =? zlen T * zlen C) true (outOfRange (da_nt d)) (fun w => w * da_nc d) (fun z => z)
    (fun z => z) (fun z => z) T C (da_nt d) (da_nc d) (da_vals d)) with (k0 := 0) as (r & k' & l' & E & W1 & W2);
    [done|intros; lia|done|by rewrite id_fmap|done|done|done|done|auto|].
  rewrite E. cbn [done2]. rewrite !id_fmap in W1, W2. unfold ret, sets. split; [done|]. split; [done|]. cbn [da_vals]. split.
  - intros (_ & GT & _). destruct W1 as [-> W]; [by left|]. split; [done|]. eapply written_ext; [|exact W]. intros i j. apply srcAt_value.
  - intros K. destruct W2 as [-> (k & F' & W)].
    { intros [GT|[? ?]]; [|done]. apply K. unfold usable. rewrite Ad, Aa. tauto. }
    split; [done|]. right. exists k. split; [done|]. eapply written_ext; [|exact W]. intros i j. apply srcAt_value.
Qed.
Lemma set3_ok {A} (d a : da A) T bC eC sC strict C : da_wf d -> da_wf a -> is_range_list bC eC sC C ->
  sets (first_out T (da_nt d)) d (usable d a /\ (ids_in T (da_nt d) \/ C = []) /\ slice_in bC eC sC (da_nc d) /\ source_fits a (zlen T) (zlen C) strict) T C
    (source_value a (zlen T) (zlen C)) (setPartOfValues3 d (Other a) T bC eC sC strict).
Proof.
  intros Wd Wa HC. pose proof (da_wf_len d Wd) as (L & N1 & N2). unfold setPartOfValues3. cbv zeta. cbn [isNull srcArr]. unfold checked at 1.
  destruct (da_alloc d) eqn:Ad; [|apply sets_throw; unfold usable; rewrite Ad; intros [[? ?] _]; done]. unfold checked at 1; cbn [negb].
  destruct (da_alloc a) eqn:Aa; [|apply sets_throw; unfold usable; rewrite Aa; intros [[? ?] _]; done]. unfold checked at 1; cbn [negb].
  destruct (bes_good bC eC sC (da_nc d) C N2 HC) as [(G2 & E2 & O2 & F2 & I2)|(G2 & [E2|[[m2 E2] O2]])]; rewrite E2; cbn [onOk]; [|apply sets_throw; tauto|].
  all: rewrite ?O2; unfold checked; try (apply sets_throw; tauto).
  destruct (technique_ok a (zlen T) (zlen C) strict) as [[F ->]|[F ->]]; cbn [onOk]; [|apply sets_throw; tauto].
  pose proof (fits_len a _ _ _ Wa F) as [K1 K2]. unfold cells. pose proof (zlen_nonneg C).
  assert (LC : zlen (seqZ 0 (zlen C)) = zlen C) by (rewrite zlen_seqZ; lia).
  edestruct (cells_ok (da_vals a) (Other a) (zlen (da_vals a) =? zlen T * zlen C) false (outOfRange (da_nt d)) (fun w => bC + w * da_nc d) (fun j => j * sC)
    (fun z => z) (fun j => bC + j * sC) T (seqZ 0 (zlen C)) (da_nt d) (da_nc d) (da_vals d)) with (k0 := 0) as (r & k' & l' & E & W1 & W2);
    [done|intros; lia|done|by rewrite <- F2|done|done|done|rewrite LC; lia|rewrite LC; auto|].
  rewrite E. cbn [done2]. rewrite <- F2, !id_fmap, LC in W1, W2.
  assert (Z0 : C = [] <-> seqZ 0 (zlen C) = []). { split; [intros ->; done|]. intros Q. rewrite F2, Q. done. }
  unfold ret, sets. split; [done|]. split; [done|]. cbn [da_vals]. split.
  - intros (_ & GT & _). destruct W1 as [-> W]; [tauto|]. split; [done|]. eapply written_ext; [|exact W]. intros i j. apply srcAt_value.
  - intros K. destruct W2 as [-> (k & F' & W)].
    { intros GT. apply K. unfold usable. rewrite Ad, Aa. tauto. }
    split; [done|]. right. exists k. split; [done|]. eapply written_ext; [|exact W]. intros i j. apply srcAt_value.
Qed.
