From Verif Require Import Base DataArray ArrLib IndexSpec FillLib StdModel StdProofs SlicesModel RenumModel IndexModel LayoutModel SkyModel SkySpec SkyProofs SkyProofs2.
From Coq Require Import ZifyBool ZifyNat.

(** * Deleting several packs. *)
Lemma zlen_0 {A} (l : list A) : zlen l = 0 -> l = [].
Proof. destruct l; [done|]. rewrite zlen_cons. pose proof (zlen_nonneg l). lia. Qed.
Lemma wo_ext {A} k ids ids' (ps : list A) : (forall x, x ∈ ids <-> x ∈ ids') -> without_from k ids ps = without_from k ids' ps.
Proof.
  intros H. revert k. induction ps as [|p ps IH]; intros k; [done|]. cbn [without_from]. rewrite !IH. by rewrite (bool_decide_ext _ _ (H k)).
Qed.
Lemma wo_nil {A} k (ps : list A) : without_from k [] ps = ps.
Proof. revert k. induction ps as [|p ps IH]; intros k; [done|]. cbn [without_from]. rewrite bool_decide_false by set_solver. by rewrite IH. Qed.
Lemma wo_keep {A} k D (z qs : list A) : (forall x, x ∈ D -> k + zlen z <= x) -> without_from k D (z ++ qs) = z ++ without_from (k + zlen z) D qs.
Proof.
  revert k. induction z as [|p z IH]; intros k H; [by rewrite Z.add_0_r|]. rewrite zlen_cons in *. cbn [app without_from]. rewrite bool_decide_false.
  - rewrite IH by (intros x Hx; specialize (H x Hx); lia). do 3 f_equal. lia.
  - intros Hk. specialize (H k Hk). pose proof (zlen_nonneg z). lia.
Qed.
Lemma wo_lt {A} k d D (qs : list A) : d < k -> without_from k (d :: D) qs = without_from k D qs.
Proof.
  revert k. induction qs as [|p qs IH]; intros k H; [done|]. cbn [without_from]. rewrite IH by lia.
  rewrite (bool_decide_ext (k ∈ d :: D) (k ∈ D)); [done|]. set_unfold. split; [intros [->|?]; [lia|done]|tauto].
Qed.
Lemma wo_step {A} k D (z : list A) p qs : SS (k + zlen z :: D) -> without_from k (k + zlen z :: D) (z ++ p :: qs) = z ++ without_from (k + zlen z + 1) D qs.
Proof.
  intros HS. apply SS_cons_inv in HS as [_ HD]. rewrite wo_keep.
  - f_equal. cbn [without_from]. rewrite bool_decide_true by set_solver. by rewrite wo_lt by lia.
  - intros x Hx. set_unfold. destruct Hx as [->|Hx]; [lia|]. specialize (HD x Hx). lia.
Qed.
Lemma split_pos {A} (qs : list A) k d : k <= d < k + zlen qs -> exists z p qs', qs = z ++ p :: qs' /\ d = k + zlen z.
Proof.
  intros H. destruct (zlook_lt qs (d - k)) as [p Hp]; [lia|]. exists (take (Z.to_nat (d - k)) qs), p, (drop (Datatypes.S (Z.to_nat (d - k))) qs). split.
  - unfold zlook in Hp. destruct (d - k <? 0) eqn:E; [lia|]. by rewrite take_drop_middle.
  - rewrite zlen_take. lia.
Qed.
Lemma move_gap {A} (x g z w : list A) a b d : a = zlen x + zlen g -> b = zlen x + zlen g + zlen z -> d = zlen x ->
  exists r, moveIn false (x ++ g ++ z ++ w) a b d = Ok (x ++ z ++ r ++ w) /\ zlen r = zlen g.
Proof.
  intros -> -> ->. pose proof (zlen_nonneg x). pose proof (zlen_nonneg g). pose proof (zlen_nonneg z). pose proof (zlen_nonneg w).
  exists (drop (Z.to_nat (zlen z)) (g ++ z)). split.
  - rewrite move_ok by (rewrite ?zlen_app; lia). f_equal. rewrite take_z by done. rewrite (app_assoc x g), sub_mid by (rewrite ?zlen_app; lia).
    rewrite <- app_assoc. rewrite (drop_zz x) with (k := zlen z) by lia. do 2 f_equal. rewrite app_assoc. rewrite drop_app_le; [done|].
    rewrite app_length. unfold zlen. lia.
  - rewrite zlen_drop, zlen_app. lia.
Qed.

Definition vstep (idx : list Z) : list Z * Z * Z -> Z -> res (list Z * Z * Z) := fun '(v, e, st) ii =>
    let* start := rd idx ii in
    let* v := (if negb (e =? 0) then moveIn false v e start st else Ok v) in
    let* e' := rd idx (ii + 1) in
    Ok (v, e', st + (start - e)).
Lemma del_values idx aft D : forall k qs x g w Hd nv,
  SS D -> (forall d, d ∈ D -> k <= d < k + zlen qs) -> zlen Hd = k -> idx = Hd ++ offs (zlen x + zlen g + zlen w) (zlen <$> qs) ->
  nv = zlen (x ++ g ++ w ++ concat qs ++ aft) ->
  (let* (v, e, st) := foldM (vstep idx) D (x ++ g ++ w ++ concat qs ++ aft, zlen x + zlen g, zlen x) in
   let* v := (if negb (e =? 0) then moveIn false v e nv st else Ok v) in reAlloc v (nv - (e - st))) = Ok (x ++ w ++ concat (without_from k D qs) ++ aft).
Proof.
  induction D as [|d D IH]; intros k qs x g w Hd nv HS HD Hk Hi ->.
  - cbn [foldM bind]. rewrite wo_nil. set (y := w ++ concat qs ++ aft).
    assert (exists r, (if negb (zlen x + zlen g =? 0) then moveIn false (x ++ g ++ y) (zlen x + zlen g) (zlen (x ++ g ++ y)) (zlen x) else Ok (x ++ g ++ y)) = Ok ((x ++ y) ++ r) /\ zlen r = zlen g) as (r & -> & Hr).
    { pose proof (zlen_nonneg x). pose proof (zlen_nonneg g). destruct (zlen x + zlen g =? 0) eqn:E.
      - exists []. assert (x = []) as -> by (apply zlen_0; lia). assert (g = []) as -> by (apply zlen_0; lia). simpl. rewrite app_nil_r. done.
      - simpl. destruct (move_gap x g y [] (zlen x + zlen g) (zlen (x ++ g ++ y)) (zlen x)) as (r & Hm & Hr); [done|rewrite !zlen_app; lia|done|].
        rewrite !app_nil_r in Hm. exists r. rewrite Hm. by rewrite <- app_assoc. }
    cbn [bind]. rewrite reAlloc_ok; [done|]. rewrite !zlen_app. lia.
  - destruct (split_pos qs k d) as (z & p & qs' & -> & ->); [apply HD; set_solver|].
    pose proof (zlen_nonneg x). pose proof (zlen_nonneg g). pose proof (zlen_nonneg w). pose proof (zlen_nonneg z). pose proof (zlen_nonneg Hd).
    set (E := zlen x + zlen g + zlen w) in *.
    assert (offs E (zlen <$> (z ++ p :: qs')) = (heads E (zlen <$> z) ++ [E + zlen (concat z)]) ++ offs (E + zlen (concat z) + zlen p) (zlen <$> qs')) as Ho.
    { rewrite (fmap_app zlen z), offs_app, fmap_cons, offs_cons, zlen_concat. by rewrite <- app_assoc. }
    assert (idx @ (k + zlen z) = Some (E + zlen (concat z))) as I0.
    { rewrite Hi, Ho. rewrite zlook_app_r by lia. rewrite zlook_app_l by (rewrite zlen_app, heads_len, zlen_fmap, zlen_cons, zlen_nil; lia).
      rewrite zlook_app_r by (rewrite heads_len, zlen_fmap; lia). rewrite heads_len, zlen_fmap. by replace (k + zlen z - zlen Hd - zlen z) with 0 by lia. }
    assert (idx @ (k + zlen z + 1) = Some (E + zlen (concat z) + zlen p)) as I1.
    { rewrite Hi, Ho. rewrite zlook_app_r by lia. rewrite zlook_app_r by (rewrite zlen_app, heads_len, zlen_fmap, zlen_cons, zlen_nil; lia).
      rewrite zlen_app, heads_len, zlen_fmap, zlen_cons, zlen_nil. replace (k + zlen z + 1 - zlen Hd - (zlen z + (1 + 0))) with 0 by lia. apply offs_hd. }
    cbn [foldM]. unfold vstep at 1. rewrite (rd_ok _ _ _ I0). cbn [bind].
    assert (exists r, (if negb (zlen x + zlen g =? 0) then moveIn false (x ++ g ++ w ++ concat (z ++ p :: qs') ++ aft) (zlen x + zlen g) (E + zlen (concat z)) (zlen x)
        else Ok (x ++ g ++ w ++ concat (z ++ p :: qs') ++ aft)) = Ok ((x ++ w ++ concat z) ++ (r ++ p) ++ [] ++ concat qs' ++ aft) /\ zlen r = zlen g) as (r & -> & Hr).
    { rewrite concat_app. change (concat (p :: qs')) with (p ++ concat qs'). destruct (zlen x + zlen g =? 0) eqn:E0.
      - exists []. assert (x = []) as -> by (apply zlen_0; lia). assert (g = []) as -> by (apply zlen_0; lia). simpl. rewrite <- !app_assoc. done.
      - cbn [negb]. destruct (move_gap x g (w ++ concat z) (p ++ concat qs' ++ aft) (zlen x + zlen g) (E + zlen (concat z)) (zlen x)) as (r & Hm & Hr); [done|unfold E; rewrite !zlen_app; lia|done|].
        exists r. split; [|done]. rewrite <- !app_assoc in *. rewrite Hm. done. }
    cbn [bind]. rewrite (rd_ok _ _ _ I1). cbn [bind].
    apply SS_cons_inv in HS as [HS HSD].
    specialize (IH (k + zlen z + 1) qs' (x ++ w ++ concat z) (r ++ p) [] (Hd ++ heads E (zlen <$> z) ++ [E + zlen (concat z)]) (zlen ((x ++ w ++ concat z) ++ (r ++ p) ++ [] ++ concat qs' ++ aft)) HS).
    assert (zlen (x ++ w ++ concat z) + zlen (r ++ p) = E + zlen (concat z) + zlen p) as He by (unfold E; rewrite !zlen_app; lia).
    assert (zlen x + (E + zlen (concat z) - (zlen x + zlen g)) = zlen (x ++ w ++ concat z)) as Hst by (unfold E; rewrite !zlen_app; lia).
    rewrite Hst, <- He. assert (zlen (x ++ g ++ w ++ concat (z ++ p :: qs') ++ aft) = zlen ((x ++ w ++ concat z) ++ (r ++ p) ++ [] ++ concat qs' ++ aft)) as ->.
    { rewrite concat_app. change (concat (p :: qs')) with (p ++ concat qs'). rewrite !zlen_app, zlen_nil. lia. }
    rewrite IH.
    + rewrite wo_step by (apply SS_cons; done). rewrite concat_app. by rewrite <- !app_assoc.
    + intros d Hin. split; [specialize (HSD d Hin); lia|]. specialize (HD d). rewrite zlen_app, zlen_cons in HD. set_unfold in HD. destruct HD as [_ HD]; [by right|]. lia.
    + rewrite !zlen_app, heads_len, zlen_fmap, zlen_cons, zlen_nil. lia.
    + rewrite Hi, Ho, zlen_nil. rewrite He. rewrite <- !app_assoc. rewrite Z.add_0_r. done.
    + done.
Qed.

Definition istep : list Z * Z * Z * Z * Z -> Z -> res (list Z * Z * Z * Z * Z) := fun '(i, e, st, off, deleted) ii =>
    let* i := (if negb (e =? 0) then let* i := moveIn false i e ii st in addFrom i st ii (- off) else Ok i) in
    let* b := rd i (ii + 1) in let* a := rd i ii in
    Ok (i, ii + 1, ii - deleted, off + (b - a), deleted + 1).
Lemma shift_heads d o l : (fun x => x + d) <$> heads o l = heads (o + d) l.
Proof. revert o. induction l as [|n l IH]; intros o; [done|]. cbn [heads]. rewrite fmap_cons, IH. do 2 f_equal. lia. Qed.
Lemma del_index D : forall k (qs : list (list Z)) x g E off nt,
  SS D -> (forall d, d ∈ D -> k <= d < k + zlen qs) -> k = zlen x + zlen g -> (k = 0 -> off = 0) ->
  nt = zlen (x ++ g ++ offs E (zlen <$> qs)) ->
  (let* (i, e, st, off, deleted) := foldM istep D (x ++ g ++ offs E (zlen <$> qs), k, zlen x, off, zlen g) in
   let* i := (if negb (e =? 0) then let* i := moveIn false i e nt st in addFrom i st nt (- off) else Ok i) in reAlloc i (nt - deleted)) =
  Ok (x ++ offs (E - off) (zlen <$> without_from k D qs)).
Proof.
  induction D as [|d D IH]; intros k qs x g E off nt HS HD Hk Hoff ->.
  - cbn [foldM bind]. rewrite wo_nil. set (y := offs E (zlen <$> qs)). pose proof (zlen_nonneg x). pose proof (zlen_nonneg g).
    assert (exists r, (if negb (k =? 0) then let* i := moveIn false (x ++ g ++ y) k (zlen (x ++ g ++ y)) (zlen x) in addFrom i (zlen x) (zlen (x ++ g ++ y)) (- off) else Ok (x ++ g ++ y))
      = Ok ((x ++ offs (E - off) (zlen <$> qs)) ++ r) /\ zlen r = zlen g) as (r & -> & Hr).
    { destruct (k =? 0) eqn:E0; cbn [negb].
      - exists []. assert (x = []) as -> by (apply zlen_0; lia). assert (g = []) as -> by (apply zlen_0; lia). rewrite Hoff by lia. rewrite Z.sub_0_r, app_nil_r. done.
      - destruct (move_gap x g y [] k (zlen (x ++ g ++ y)) (zlen x)) as (r & Hm & Hr); [done|rewrite !zlen_app; lia|done|].
        rewrite !app_nil_r in Hm. rewrite Hm. cbn [bind]. rewrite addFrom_ok by (rewrite ?zlen_app; lia).
        unfold y. rewrite fmap_app, offs_shift. exists ((fun v => v + - off) <$> r). split; [|by rewrite zlen_fmap]. rewrite <- app_assoc. done. }
    cbn [bind]. rewrite reAlloc_ok; [done|]. rewrite !zlen_app. unfold y. rewrite !offs_len. lia.
  - destruct (split_pos qs k d) as (z & p & qs' & -> & ->); [apply HD; set_solver|].
    pose proof (zlen_nonneg x). pose proof (zlen_nonneg g). pose proof (zlen_nonneg z). pose proof (zlen_nonneg (concat z)).
    assert (offs E (zlen <$> (z ++ p :: qs')) = heads E (zlen <$> z) ++ [E + zlen (concat z)] ++ offs (E + zlen (concat z) + zlen p) (zlen <$> qs')) as Ho.
    { rewrite (fmap_app zlen z), offs_app, fmap_cons, offs_cons, zlen_concat. done. }
    rewrite Ho. set (y := offs (E + zlen (concat z) + zlen p) (zlen <$> qs')). set (zh := heads E (zlen <$> z)).
    assert (zlen zh = zlen z) as Hzh by (unfold zh; by rewrite heads_len, zlen_fmap).
    cbn [foldM]. unfold istep at 1.
    assert (exists r, (if negb (k =? 0) then let* i := moveIn false (x ++ g ++ zh ++ [E + zlen (concat z)] ++ y) k (k + zlen z) (zlen x) in addFrom i (zlen x) (k + zlen z) (- off)
       else Ok (x ++ g ++ zh ++ [E + zlen (concat z)] ++ y)) = Ok ((x ++ heads (E - off) (zlen <$> z)) ++ (r ++ [E + zlen (concat z)]) ++ y) /\ zlen r = zlen g) as (r & -> & Hr).
    { destruct (k =? 0) eqn:E0; cbn [negb].
      - exists []. assert (x = []) as -> by (apply zlen_0; lia). assert (g = []) as -> by (apply zlen_0; lia). rewrite Hoff by lia. rewrite Z.sub_0_r. done.
      - destruct (move_gap x g zh ([E + zlen (concat z)] ++ y) k (k + zlen z) (zlen x)) as (r & Hm & Hr); [lia..|].
        rewrite Hm. cbn [bind]. rewrite (app_assoc zh r), addFrom_mid by (rewrite ?zlen_app; lia).
        exists ((fun v => v + - off) <$> r). split; [|by rewrite zlen_fmap]. unfold zh. rewrite fmap_app, shift_heads. rewrite <- !app_assoc. done. }
    cbn [bind]. remember (x ++ heads (E - off) (zlen <$> z)) as x' eqn:Ex. assert (zlen x' = zlen x + zlen z) as Hx' by (rewrite Ex; by rewrite zlen_app, heads_len, zlen_fmap).
    rewrite (rd_ok _ (k + zlen z + 1) (E + zlen (concat z) + zlen p)).
    2: { rewrite app_assoc, zlook_app_r by (rewrite !zlen_app, zlen_cons, zlen_nil; lia). rewrite !zlen_app, zlen_cons, zlen_nil.
      replace (_ - _) with 0 by lia. apply offs_hd. }
    cbn [bind]. rewrite (rd_ok _ (k + zlen z) (E + zlen (concat z))).
    2: { rewrite <- app_assoc, (app_assoc x' r), zlook_app_r by (rewrite !zlen_app; lia). rewrite !zlen_app. by replace (_ - _) with 0 by lia. }
    cbn [bind]. apply SS_cons_inv in HS as [HS HSD].
    specialize (IH (k + zlen z + 1) qs' x' (r ++ [E + zlen (concat z)]) (E + zlen (concat z) + zlen p) (off + zlen p) (zlen (x' ++ (r ++ [E + zlen (concat z)]) ++ y)) HS).
    assert (zlen (r ++ [E + zlen (concat z)]) = zlen g + 1) as Hrg by (rewrite zlen_app, zlen_cons, zlen_nil; lia).
    rewrite Hrg in IH. replace (k + zlen z - zlen g) with (zlen x') by lia.
    replace (off + (E + zlen (concat z) + zlen p - (E + zlen (concat z)))) with (off + zlen p) by lia.
    replace (zlen (x ++ g ++ zh ++ [E + zlen (concat z)] ++ y)) with (zlen (x' ++ (r ++ [E + zlen (concat z)]) ++ y)) by (rewrite !zlen_app; lia).
    fold y in IH. rewrite IH.
    + f_equal. rewrite wo_step by (apply SS_cons; done). rewrite (fmap_app zlen z), offs_app, Ex, <- app_assoc. do 3 f_equal. rewrite <- zlen_concat. lia.
    + intros d Hin. split; [specialize (HSD d Hin); lia|]. specialize (HD d). rewrite zlen_app, zlen_cons in HD. set_unfold in HD. destruct HD as [_ HD]; [by right|]. lia.
    + lia.
    + lia.
    + done.
Qed.
Lemma existsb_ids_false ids n : (forall i, i ∈ ids -> 0 <= i < n) -> existsb (fun i => (i <? 0) || (n <=? i)) ids = false.
Proof.
  intros H. induction ids as [|i ids IH]; [done|]. cbn [existsb]. rewrite IH by (intros j Hj; apply H; set_solver). specialize (H i). set_unfold in H.
  destruct H as [? ?]; [by left|]. replace ((i <? 0) || (n <=? i)) with false by lia. done.
Qed.
Lemma existsb_ids_true ids n i : i ∈ ids -> i < 0 \/ n <= i -> existsb (fun i => (i <? 0) || (n <=? i)) ids = true.
Proof.
  intros Hi H. induction ids as [|j ids IH]; [set_solver|]. cbn [existsb]. set_unfold in Hi. destruct Hi as [->|Hi].
  - replace ((j <? 0) || (n <=? j)) with true by lia. done.
  - rewrite IH by done. by rewrite orb_true_r.
Qed.
Lemma deletes_ok ps s ids : sky2 ps s -> (forall i, i ∈ ids -> 0 <= i < zlen ps) ->
  exists s', deleteSimplePacks false s ids = Ok s' /\ sky2 (without ids ps) s' /\ s_super s' = s_super s.
Proof.
  intros Hs Hids. pose proof (len2 _ _ Hs) as Hl. destruct Hs as (pre & post & Hv & Hi). unfold deleteSimplePacks.
  rewrite existsb_ids_false by (intros i Hin; specialize (Hids i Hin); lia). cbn [ifthrow].
  assert (forall d, d ∈ set_of ids -> 0 <= d < 0 + zlen ps) as Hd by (intros d Hd; apply (elem_of_set_of ids d) in Hd; specialize (Hids d Hd); lia).
  pose proof (del_values (s_index s) post (set_of ids) 0 ps [] [] pre [] (zlen (s_values s)) (SS_set_of ids) Hd eq_refl) as H1.
  change (@zlen Z []) with 0 in H1. specialize (H1 Hi). simpl app in H1. rewrite Hv in *. specialize (H1 eq_refl). unfold vstep in H1.
  pose proof (del_index (set_of ids) 0 ps [] [] (zlen pre) 0 (zlen (s_index s)) (SS_set_of ids) Hd eq_refl ltac:(done)) as H2.
  simpl app in H2. rewrite <- Hi in H2. specialize (H2 eq_refl). unfold istep in H2. change (@zlen Z []) with 0 in H2. change (0 + 0) with 0 in *.
  destruct (foldM _ (set_of ids) (pre ++ concat ps ++ post, 0, 0)) as [[[v e] st]| | |]; try done. cbn [bind] in *.
  destruct (if negb (e =? 0) then _ else _) as [v2| | |]; try done. cbn [bind] in *. rewrite H1. cbn [bind].
  destruct (foldM _ (set_of ids) (s_index s, 0, 0, 0, 0)) as [[[[[i e2] st2] off] del]| | |]; try done. cbn [bind] in *.
  destruct (if negb (e2 =? 0) then _ else _) as [i2| | |]; try done. cbn [bind] in *. rewrite H2. cbn [bind]. eexists. split; [done|]. split; [|done].
  exists pre, post. simpl. unfold without. rewrite (wo_ext 0 ids (set_of ids)) by (intros x; by rewrite elem_of_set_of). split; [done|]. by rewrite Z.sub_0_r.
Qed.
Lemma deletes_throw ps s ids i strict : sky2 ps s -> i ∈ ids -> i < 0 \/ zlen ps < i -> deleteSimplePacks strict s ids = Throw.
Proof. intros Hs Hi H. pose proof (len2 _ _ Hs). unfold deleteSimplePacks. rewrite (existsb_ids_true _ _ i) by (done || lia). done. Qed.
Lemma without_look {A} ids (ps : list A) k : forall r, without_from k ids (ps ++ r) = without_from k ids ps ++ without_from (k + zlen ps) ids r.
Proof.
  revert k. induction ps as [|p ps IH]; intros k r; [by rewrite Z.add_0_r|]. cbn [app without_from]. rewrite IH. rewrite zlen_cons.
  replace (k + (1 + zlen ps)) with (k + 1 + zlen ps) by lia. by destruct (bool_decide _).
Qed.

