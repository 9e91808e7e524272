From Coq Require Import ZifyBool ZifyNat.
From Verif Require Import Base DataArray ArrLib SlicesModel SlicesSpec SlicesProofs SetModel SetSpec SetProofs.

(** ** One value: the loops with a source made of that value. *)
Lemma simple_row {A} (a : A) (v : list A) (bad : bool) b (off : Z -> Z) cols : (forall k, 0 <= k < zlen v -> v @ k = Some a) -> forall k l r k' l', 0 <= k -> k + zlen cols <= zlen v ->
  each (fun c '(k, l) => whenE (negb false && bad) (k, l) (let '(o, l) := assign (b + off c) (rd v k) l in (o, (k + 1, l)))) cols (k, l) = (r, (k', l')) ->
  each (fun c l => whenE bad l (assign (b + off c) (Ok a) l)) cols l = (r, l').
Proof.
  intros Hv. induction cols as [|c cols IH]; intros k l r k' l' Hk Hl; cbn [each]; [intros [= <- _ <-]; done|]. rewrite zlen_cons in Hl. pose proof (zlen_nonneg cols).
  cbn [negb andb]. destruct bad; unfold whenE at 1 3; [intros [= <- _ <-]; done|]. rewrite (rd_ok _ _ a) by (apply Hv; lia).
  destruct (assign (b + off c) (Ok a) l) as [[] l1]; try (intros [= <- _ <-]; done). intros E. apply (IH (k + 1) l1 r k' l'); [lia|lia|exact E].
Qed.
Lemma simple_rows {A} (a : A) (v : list A) s bad base off rows cols : (forall k, 0 <= k < zlen v -> v @ k = Some a) -> (forall l, srcVals s l = v) -> zlen cols <= zlen v -> forall k l r k' l', 
  each (fun r '(k0, l) =>
    whenE (false && bad r) (k0, l)
    (each (fun c '(k, l) =>
      whenE (negb false && bad r) (k, l)
      (let '(o, l) := assign (base r + off c) (rd (srcVals s l) k) l in (o, (k + 1, l)))) cols (if false then k0 else 0, l))) rows (k, l) = (r, (k', l')) ->
  cellsSimple a bad base off rows cols l = (r, l').
Proof.
  intros Hv Hs Hl. unfold cellsSimple. induction rows as [|x rows IH]; intros k l r k' l'; cbn [each]; [intros [= <- _ <-]; done|]. cbn [andb]. unfold whenE at 1.
  match goal with |- context [each ?f cols (0, l)] => destruct (each f cols (0, l)) as [o [k1 l1]] eqn:E end.
  assert (E1 : each (fun c '(k, l) => whenE (negb false && bad x) (k, l) (let '(o, l) := assign (base x + off c) (rd v k) l in (o, (k + 1, l)))) cols (0, l) = (o, (k1, l1))).
  { rewrite <- E. clear -Hs. generalize 0 as k. revert l. induction cols as [|c cols IHc]; intros l k; [done|]. cbn [each]. rewrite Hs. destruct (whenE _ _ _) as [[] [? ?]]; try done; apply IHc. }
  apply (simple_row a v (bad x) (base x) off cols Hv) in E1; [|lia|lia]. rewrite E1. destruct o as [[]| | |]; try (intros [= <- _ <-]; done). apply IH.
Qed.
Lemma simple_ok {A} (a : A) bad base off (τ γ : Z -> Z) rows cols nt nc (l : list A) :
  (forall r c, base r + off c = τ r * nc + γ c) -> (forall r, r ∈ rows -> bad r = outOfRange nt (τ r)) -> ids_in (γ <$> cols) nc -> 0 <= nc -> zlen l = nt * nc ->
  exists r l', cellsSimple a bad base off rows cols l = (r, l') /\
    (ids_in (τ <$> rows) nt \/ cols = [] -> r = Ok tt /\ written nc (τ <$> rows) (γ <$> cols) (fun _ _ => Some a) l l') /\
    (~ (ids_in (τ <$> rows) nt \/ cols = []) -> r = Throw /\ exists k, first_out (τ <$> rows) nt k /\ written nc (take (Z.to_nat k) (τ <$> rows)) (γ <$> cols) (fun _ _ => Some a) l l').
Proof.
  intros Hp Hb HC Hnc Hl. set (v := replicate (length cols) a). assert (Lv : zlen v = zlen cols) by (unfold v; by rewrite zlen_replicate).
  assert (Hv : forall k, 0 <= k < zlen v -> v @ k = Some a) by (intros k Hk; unfold v; rewrite zlook_replicate; [done|unfold zlen in *; lia]).
  assert (WE : forall T l', written nc T (γ <$> cols) (srcAt v false (zlen cols) 0) l l' -> written nc T (γ <$> cols) (fun _ _ => Some a) l l').
  { intros T l' (W1 & W2 & W3). split; [done|]. split; [|done]. intros i j t c Hi Hj Li Lj. rewrite (W2 i j t c Hi Hj Li Lj). unfold srcAt. apply Hv. pose proof (zlook_Some_lt _ _ _ Hj) as Q. rewrite zlen_fmap in Q. lia. }
  edestruct (cells_ok v (Other (DA true 1 v)) false false bad base off τ γ rows cols nt nc l) with (k0 := 0) as (r & k' & l' & E & G1 & G2); [done|done|done|done|done|done|done|done|lia|].
  exists r, l'. split; [eapply (simple_rows a v (Other (DA true 1 v))); [exact Hv|done|lia|exact E]|]. split.
  - intros G. destruct G1 as [-> W]; [tauto|]. split; [done|by apply WE].
  - intros G. destruct G2 as [-> (k & F & W)]; [tauto|]. split; [done|]. exists k. split; [done|by apply WE].
Qed.
Ltac range_lens T := pose proof (zlen_nonneg T).
Lemma sset1_ok {A} (d : da A) (a : A) bT eT sT bC eC sC T C : da_wf d -> is_range_list bT eT sT T -> is_range_list bC eC sC C ->
  sets nowhere d (da_alloc d = true /\ slice_in bT eT sT (da_nt d) /\ slice_in bC eC sC (da_nc d)) T C (fun _ _ => Some a) (setPartOfValuesSimple1 d a bT eT sT bC eC sC).
Proof.
  intros Wd HT HC. pose proof (da_wf_len d Wd) as (L & N1 & N2). unfold setPartOfValuesSimple1.
  destruct (da_alloc d) eqn:Ad; [|apply sets_throw; tauto || (intros [? _]; done)]. unfold checked at 1; cbn [negb].
  destruct (bes_good bT eT sT (da_nt d) T N1 HT) as [(G1 & E1 & O1 & F1 & I1)|(G1 & [E1|[[m1 E1] O1]])]; rewrite E1; cbn [onOk]; [|apply sets_throw; tauto|..].
  all: destruct (bes_good bC eC sC (da_nc d) C N2 HC) as [(G2 & E2 & O2 & F2 & I2)|(G2 & [E2|[[m2 E2] O2]])]; rewrite E2; cbn [onOk]; [|apply sets_throw; tauto|..].
  all: rewrite ?O1, ?O2; unfold checked; try (apply sets_throw; tauto).
  edestruct (simple_ok a never (fun i => bT * da_nc d + bC + i * (sT * da_nc d)) (fun j => j * sC) (fun i => bT + i * sT) (fun j => bC + j * sC) (seqZ 0 (zlen T)) (seqZ 0 (zlen C)) (da_nt d) (da_nc d) (da_vals d))
    as (r & l' & E & W & _); [intros; lia| |by rewrite <- F2|done|done|].
  { intros i Hi. unfold never. symmetry. apply outOfRange_spec. apply I1. rewrite F1. apply elem_of_list_fmap. eauto. }
  rewrite E. cbn [done1]. destruct W as [-> W]; [left; by rewrite <- F1|]. rewrite <- F1, <- F2 in W. unfold ret, sets. split; [done|]. split; [done|]. split; [done|].
  intros K. exfalso. tauto.
Qed.
Lemma sset4_ok {A} (d : da A) (a : A) bT eT sT T C : da_wf d -> is_range_list bT eT sT T ->
  sets nowhere d (da_alloc d = true /\ slice_in bT eT sT (da_nt d) /\ ids_in C (da_nc d)) T C (fun _ _ => Some a) (setPartOfValuesSimple4 d a bT eT sT C).
Proof.
  intros Wd HT. pose proof (da_wf_len d Wd) as (L & N1 & N2). unfold setPartOfValuesSimple4.
  destruct (da_alloc d) eqn:Ad; [|apply sets_throw; tauto || (intros [? _]; done)]. unfold checked at 1; cbn [negb].
  destruct (bes_good bT eT sT (da_nt d) T N1 HT) as [(G1 & E1 & O1 & F1 & I1)|(G1 & [E1|[[m1 E1] O1]])]; rewrite E1; cbn [onOk]; [|apply sets_throw; tauto|..].
  all: destruct (comps_good (da_nc d) C) as [[G2 E2]|[G2 E2]]; rewrite E2; unfold checked; [|apply sets_throw; tauto].
  all: rewrite ?O1; try (apply sets_throw; tauto).
  edestruct (simple_ok a never (fun i => bT * da_nc d + i * (sT * da_nc d)) (fun z => z) (fun i => bT + i * sT) (fun z => z) (seqZ 0 (zlen T)) C (da_nt d) (da_nc d) (da_vals d))
    as (r & l' & E & W & _); [intros; lia| |by rewrite id_fmap|done|done|].
  { intros i Hi. unfold never. symmetry. apply outOfRange_spec. apply I1. rewrite F1. apply elem_of_list_fmap. eauto. }
  rewrite E. cbn [done1]. destruct W as [-> W]; [left; by rewrite <- F1|]. rewrite <- F1, id_fmap in W. unfold ret, sets. split; [done|]. split; [done|]. split; [done|].
  intros K. exfalso. tauto.
Qed.
Lemma sset2_ok {A} (d : da A) (a : A) T C : da_wf d ->
  sets (first_out T (da_nt d)) d (da_alloc d = true /\ (ids_in T (da_nt d) \/ C = []) /\ ids_in C (da_nc d)) T C (fun _ _ => Some a) (setPartOfValuesSimple2 d a T C).
Proof.
  intros Wd. pose proof (da_wf_len d Wd) as (L & N1 & N2). unfold setPartOfValuesSimple2.
  destruct (da_alloc d) eqn:Ad; [|apply sets_throw; tauto || (intros [? _]; done)]. unfold checked at 1; cbn [negb].
  destruct (comps_good (da_nc d) C) as [[G2 E2]|[G2 E2]]; rewrite E2; unfold checked; [|apply sets_throw; tauto].
  edestruct (simple_ok a (outOfRange (da_nt d)) (fun w => w * da_nc d) (fun z => z) (fun z => z) (fun z => z) T C (da_nt d) (da_nc d) (da_vals d))
    as (r & l' & E & W1 & W2); [intros; lia|done|by rewrite id_fmap|done|done|].
  rewrite E. cbn [done1]. rewrite !id_fmap in W1, W2. unfold ret, sets. split; [done|]. split; [done|]. split; [intros (_ & G & _); by apply W1|].
  intros K. destruct W2 as [-> W]; [tauto|]. split; [done|by right].
Qed.
Lemma sset3_ok {A} (d : da A) (a : A) T bC eC sC C : da_wf d -> is_range_list bC eC sC C ->
  sets (first_out T (da_nt d)) d (da_alloc d = true /\ (ids_in T (da_nt d) \/ C = []) /\ slice_in bC eC sC (da_nc d)) T C (fun _ _ => Some a) (setPartOfValuesSimple3 d a T bC eC sC).
Proof.
  intros Wd HC. pose proof (da_wf_len d Wd) as (L & N1 & N2). unfold setPartOfValuesSimple3.
  destruct (da_alloc d) eqn:Ad; [|apply sets_throw; tauto || (intros [? _]; done)]. unfold checked at 1; cbn [negb].
  destruct (bes_good bC eC sC (da_nc d) C N2 HC) as [(G2 & E2 & O2 & F2 & I2)|(G2 & [E2|[[m2 E2] O2]])]; rewrite E2; cbn [onOk]; [|apply sets_throw; tauto|..].
  all: rewrite ?O2; unfold checked; try (apply sets_throw; tauto).
  edestruct (simple_ok a (outOfRange (da_nt d)) (fun w => bC + w * da_nc d) (fun j => j * sC) (fun z => z) (fun j => bC + j * sC) T (seqZ 0 (zlen C)) (da_nt d) (da_nc d) (da_vals d))
    as (r & l' & E & W1 & W2); [intros; lia|done|by rewrite <- F2|done|done|].
  assert (Z0 : C = [] <-> seqZ 0 (zlen C) = []). { split; [intros ->; done|]. intros Q. rewrite F2, Q. done. }
  rewrite E. cbn [done1]. rewrite <- F2, !id_fmap in W1, W2. unfold ret, sets. split; [done|]. split; [done|]. split; [intros (_ & G & _); apply W1; tauto|].
  intros K. destruct W2 as [-> W]; [tauto|]. split; [done|by right].
Qed.

(** ** The array itself as source: same outcome as with a copy. *)
Definition sameO {S} (R : S -> S -> Prop) (x y : res unit * S) : Prop := fst x = fst y /\ R (snd x) (snd y).
Lemma each_rel {T S} (R : S -> S -> Prop) (f g : T -> S -> res unit * S) l : (forall x s1 s2, R s1 s2 -> sameO R (f x s1) (g x s2)) -> forall s1 s2, R s1 s2 -> sameO R (each f l s1) (each g l s2).
Proof.
  intros H. induction l as [|x l IH]; intros s1 s2 HR; cbn [each]; [done|]. pose proof (H x s1 s2 HR) as [E1 E2].
  destruct (f x s1) as [r1 t1], (g x s2) as [r2 t2]. cbn in E1, E2. subst r2. destruct r1; [by apply IH|done..].
Qed.
Definition Rl {A} (n : Z) (l1 l2 : list A) : Prop := zlen l1 = n /\ zlen l2 = n.
Lemma assign_rel {A} n p (v1 v2 l1 l2 : list A) k : Rl n l1 l2 -> zlen v1 = zlen v2 -> sameO (Rl n) (assign p (rd v1 k) l1) (assign p (rd v2 k) l2).
Proof.
  intros [H1 H2] Hv. unfold assign, rd. destruct (v1 @ k) as [x|] eqn:E1, (v2 @ k) as [y|] eqn:E2; cbn [bind].
  - unfold wr. rewrite H1, H2. destruct (_ && _); (split; [done|]); split; cbn; rewrite ?zlen_zset; done.
  - apply zlook_Some_lt in E1. destruct (zlook_lt v2 k) as [? ?]; [lia|congruence].
  - apply zlook_Some_lt in E2. destruct (zlook_lt v1 k) as [? ?]; [lia|congruence].
  - split; done.
Qed.
Lemma cells_same {A} (d : da A) tech early bad base off rows cols :
  sameO (fun s1 s2 => fst s1 = fst s2 /\ Rl (zlen (da_vals d)) (snd s1) (snd s2)) (cells Self tech early bad base off rows cols (da_vals d)) (cells (Other d) tech early bad base off rows cols (da_vals d)).
Proof.
  unfold cells. apply each_rel; [|done]. intros r [k1 l1] [k2 l2] [E R]. cbn in E, R. subst k2. unfold whenE at 1 3. destruct (early && bad r); [done|]. apply each_rel; [|done].
  intros c [k1' m1] [k2' m2] [E R']. cbn in E, R'. subst k2'. unfold whenE. destruct (negb early && bad r); [done|]. cbn [srcVals].
  pose proof (assign_rel _ (base r + off c) m1 (da_vals d) m1 m2 k1' R' (proj1 R')) as [Q1 Q2]. destruct (assign _ _ m1) as [r1 t1], (assign _ _ m2) as [r2 t2]. cbn in Q1, Q2. subst r2. done.
Qed.
Lemma so_checked {A} (d : da A) b x y : same_outcome d x y -> same_outcome d (checked d b x) (checked d b y).
Proof. intros H. unfold checked. destruct b; done. Qed.
Lemma so_onOk {A T} (d : da A) (r : res T) f g : (forall x, same_outcome d (f x) (g x)) -> same_outcome d (onOk d r f) (onOk d r g).
Proof. intros H. destruct r; cbn; [apply H|done..]. Qed.
Lemma so_done2 {A} (d : da A) x y : sameO (fun s1 s2 : Z * list A => fst s1 = fst s2 /\ Rl (zlen (da_vals d)) (snd s1) (snd s2)) x y -> same_outcome d (done2 d x) (done2 d y).
Proof. destruct x as [r1 [k1 l1]], y as [r2 [k2 l2]]. intros [E [_ [R1 R2]]]. cbn in *. subst r2. done. Qed.
Ltac so := cbv zeta; cbn [isNull srcArr]; repeat (apply so_checked || (apply so_onOk; intros ?)); apply so_done2, cells_same.
Lemma set1_self {A} (d : da A) bT eT sT bC eC sC strict : same_outcome d (setPartOfValues1 d Self bT eT sT bC eC sC strict) (setPartOfValues1 d (Other d) bT eT sT bC eC sC strict).
Proof. unfold setPartOfValues1. so. Qed.
Lemma set2_self {A} (d : da A) T C strict : same_outcome d (setPartOfValues2 d Self T C strict) (setPartOfValues2 d (Other d) T C strict).
Proof. unfold setPartOfValues2. so. Qed.
Lemma set3_self {A} (d : da A) T bC eC sC strict : same_outcome d (setPartOfValues3 d Self T bC eC sC strict) (setPartOfValues3 d (Other d) T bC eC sC strict).
Proof. unfold setPartOfValues3. so. Qed.
Lemma set4_self {A} (d : da A) bT eT sT C strict : same_outcome d (setPartOfValues4 d Self bT eT sT C strict) (setPartOfValues4 d (Other d) bT eT sT C strict).
Proof. unfold setPartOfValues4. so. Qed.
