(** Proofs: the solid cells keep their answers when their nodes are renamed one to one. *)
From Coq Require Import QArith ZifyBool ZifyNat.
From Verif Require Import Base DataArray CellTable CellModel UmModel UmSpec DgModel DgSpec.
Local Open Scope Z_scope.

Definition rmap {A B} (f : A -> B) (r : res A) : res B := match r with Ok x => Ok (f x) | Throw => Throw | UB => UB | Fuel => Fuel end.
Lemma bind_rmap {A B C} (f : A -> B) (r : res A) (k : B -> res C) : bind (rmap f r) k = bind r (fun x => k (f x)).
Proof. by destruct r. Qed.
Lemma rmap_bind {A B C} (f : B -> C) (r : res A) (k : A -> res B) : rmap f (bind r k) = bind r (fun x => rmap f (k x)).
Proof. by destruct r. Qed.
Lemma bind_ext {A B} (r : res A) (k k' : A -> res B) : (forall x, k x = k' x) -> bind r k = bind r k'.
Proof. intros H. destruct r; simpl; auto. Qed.
Lemma rmap_ub {A B} (f : A -> B) c (k : res A) : rmap f (ub_if c >>> k) = (ub_if c >>> rmap f k).
Proof. by destruct c. Qed.
Lemma forZ_rmap {S T} (g : S -> T) (f : Z -> S -> res S) (f' : Z -> T -> res T) lo hi s : (forall i s, f' i (g s) = rmap g (f i s)) -> forZ lo hi f' (g s) = rmap g (forZ lo hi f s).
Proof.
  intros H. unfold forZ. generalize (seqZ lo (hi - lo)). intros l. revert s. induction l as [|a l IH]; intros s; simpl; [done|].
  rewrite H, bind_rmap, rmap_bind. apply bind_ext. intros x. apply IH.
Qed.
Lemma forZ_same {S} (f f' : Z -> S -> res S) lo hi s : (forall i s, f' i s = f i s) -> forZ lo hi f' s = forZ lo hi f s.
Proof. intros H. unfold forZ. apply foldM_ext. intros. apply H. Qed.

Section rename.
  Variables (h : Z -> Z) (Hi : Inj (=) (=) h) (Hm : h (-1) = -1) (Hs : forall x, (0 <=? h x) = (0 <=? x)).
  Notation H := (fmap (M := list) h).
  Definition hp (p : Z * Z) : Z * Z := (h p.1, h p.2).
  Definition hc (c : Z * list Z) : Z * list Z := (c.1, h <$> c.2).
  Definition hw (c : list Z * list Z) : list Z * list Z := (h <$> c.1, c.2).

  Lemma h_eqb x y : (h x =? h y) = (x =? y).
  Proof using Hi Hm Hs. destruct (Z.eqb_spec x y) as [->|H1]; [lia|]. apply Z.eqb_neq. intros H2. by apply H1, Hi. Qed.
  Lemma h_m1 x : (h x =? -1) = (x =? -1).
  Proof using Hi Hm Hs. rewrite <- Hm at 1. apply h_eqb. Qed.
  Lemma hp_inj : Inj (=) (=) hp.
  Proof using Hi Hm Hs. intros [a b] [c d] E. unfold hp in E. simpl in E. injection E as E1 E2. apply Hi in E1, E2. by subst. Qed.
  Lemma zl {A B} (f : A -> B) (l : list A) : zlen (f <$> l) = zlen l.
  Proof using. unfold zlen. by rewrite fmap_length. Qed.
  Lemma rd_h l i : rd (h <$> l) i = rmap h (rd l i).
  Proof using. unfold rd, zlook. destruct (i <? 0); [done|]. rewrite list_lookup_fmap. by destruct (l !! Z.to_nat i). Qed.
  Lemma reads_h l idx : reads (h <$> l) idx = rmap H (reads l idx).
  Proof using.
    unfold reads. enough (forall acc, foldM (fun acc i => let* v := rd (h <$> l) i in Ok (acc ++ [v])) idx (h <$> acc) = rmap H (foldM (fun acc i => let* v := rd l i in Ok (acc ++ [v])) idx acc)) as E by exact (E []).
    induction idx as [|i r IH]; intros acc; simpl; [done|].
    rewrite rd_h. destruct (rd l i) as [v| | |]; simpl; [|done|done|done]. rewrite <- IH. f_equal. by rewrite fmap_app.
  Qed.
  Lemma find1_h l : find1 (h <$> l) = find1 l.
  Proof using Hi Hm Hs. induction l as [|a l IH]; [done|]. rewrite fmap_cons. cbn [find1]. rewrite h_m1, IH. done. Qed.
  Lemma findSep_h l w : findSep (h <$> l) w = findSep l w.
  Proof using Hi Hm Hs. unfold findSep. rewrite zl. rewrite <- fmap_drop, find1_h. done. Qed.
  Lemma faceStart_h l k : faceStart (h <$> l) k = faceStart l k.
  Proof using Hi Hm Hs. unfold faceStart. apply forZ_same. intros. by rewrite findSep_h. Qed.
  Lemma nsons_h c l : getNumberOfSons2 c (h <$> l) = getNumberOfSons2 c l.
  Proof using Hi Hm Hs.
    unfold getNumberOfSons2. rewrite zl. assert (zlen (filter (fun x => x = -1) (h <$> l)) = zlen (filter (fun x => x = -1) l)) as ->; [|done].
    induction l as [|a l IH]; [done|]. rewrite fmap_cons, !filter_cons. pose proof (h_m1 a).
    destruct (decide (h a = -1)), (decide (a = -1)); try lia; unfold zlen in *; simpl; lia.
  Qed.
  Lemma piece_h l a b : piece (h <$> l) a b = h <$> piece l a b.
  Proof using. unfold piece. by rewrite <- fmap_drop, <- fmap_take. Qed.
  Lemma rdn_h l a n : rdn (h <$> l) a n = rmap H (rdn l a n).
  Proof using. unfold rdn. rewrite rmap_ub, zl, piece_h. done. Qed.
  Lemma fillSon2_h c j l : fillSon2 c j (h <$> l) = rmap hc (fillSon2 c j l).
  Proof using Hi Hm Hs.
    unfold fillSon2. rewrite zl, rmap_bind. apply bind_ext. intros t. destruct (negb (cm_dyn c)).
    { unfold fillSon. destruct (rd (cm_sons c) j) as [s| | |]; [|done|done|done]. cbn [bind]. rewrite reads_h. by destruct (reads l s.2). }
    destruct (cm_dim c =? 2).
    { destruct (cm_type c =? NORM_POLYGON).
      - rewrite rd_h, bind_rmap, rmap_bind. apply bind_ext. intros x. rewrite rmap_ub. f_equal. rewrite rd_h, bind_rmap, rmap_bind. done.
      - rewrite rd_h, bind_rmap, rmap_bind. apply bind_ext. intros x. rewrite rmap_ub. f_equal. rewrite rd_h, bind_rmap, rmap_bind. apply bind_ext. intros y. rewrite rd_h, bind_rmap, rmap_bind. done. }
    destruct (cm_dim c =? 3); [|done]. rewrite faceStart_h, rmap_bind. apply bind_ext. intros w. rewrite findSep_h, rmap_bind. apply bind_ext. intros w2. simpl. unfold hc. simpl. by rewrite fmap_take, fmap_drop.
  Qed.
  Lemma elem_h x (l : list Z) : h x ∈ h <$> l <-> x ∈ l.
  Proof using Hi Hm Hs. split; [|apply elem_of_list_fmap_1]. intros E. apply elem_of_list_fmap in E as (y & E & Hy). by apply Hi in E as ->. Qed.
  Lemma distinct_h l : distinctNodes (h <$> l) = h <$> distinctNodes l.
  Proof using Hi Hm Hs.
    unfold distinctNodes. set (f := fun acc x => if bool_decide (x ∈ acc) then acc else acc ++ [x]).
    enough (forall acc, foldl f (h <$> acc) (h <$> l) = h <$> foldl f acc l) as E by exact (E []). induction l as [|a l IH]; intros acc; simpl; [done|].
    rewrite <- IH. f_equal. unfold f. rewrite (bool_decide_ext (h a ∈ h <$> acc) (a ∈ acc)) by apply elem_h. case_bool_decide; [done|]. by rewrite fmap_app.
  Qed.
  Lemma unpoly2_h q l : tryToUnPoly2D q (h <$> l) = hc (tryToUnPoly2D q l).
  Proof using. unfold tryToUnPoly2D, hc. simpl. by rewrite zl. Qed.
  Lemma full_h ty l : getFullPolyh3DCell ty (h <$> l) = rmap hw (getFullPolyh3DCell ty l).
  Proof using Hi Hm Hs.
    unfold getFullPolyh3DCell. rewrite rmap_bind. apply bind_ext. intros c. rewrite nsons_h.
    change (@nil Z, @nil Z) with (hw ([], [])) at 1.
    rewrite (forZ_rmap hw (fun j '(work, faces) =>
      let* s := fillSon2 c j l in
      ub_if (zlen s.2 =? 0) >>>
      let tmp2 := distinctNodes s.2 in
      if zlen tmp2 <? 3 then Ok (work, faces) else
      let* c2 := GetCellModel s.1 in
      let u := tryToUnPoly2D (cm_quad c2) tmp2 in
      Ok (work ++ u.2 ++ [-1], faces ++ [u.1]))).
    - rewrite bind_rmap, rmap_bind. apply bind_ext. intros [w f]. rewrite rmap_ub. unfold hw. cbn [fst snd rmap]. rewrite zl. by rewrite fmap_take.
    - intros i [w f]. unfold hw at 1. cbn [fst snd]. rewrite fillSon2_h, bind_rmap, rmap_bind. apply bind_ext. intros [t s]. rewrite rmap_ub. unfold hc. cbn [fst snd]. rewrite zl. f_equal. rewrite distinct_h, zl.
      destruct (_ <? 3); [done|]. rewrite rmap_bind. apply bind_ext. intros c2. rewrite unpoly2_h. unfold hw, hc. cbn [fst snd rmap]. f_equal. f_equal. rewrite !fmap_app, fmap_cons, Hm. done.
  Qed.

  Lemma rot_h {A B} (f : A -> B) n (l : list A) : drop n (f <$> l) ++ take n (f <$> l) = f <$> (drop n l ++ take n l).
  Proof using. by rewrite fmap_app, fmap_drop, fmap_take. Qed.
  Lemma ring_h l : ringEdges (h <$> l) = hp <$> ringEdges l.
  Proof using. unfold ringEdges. rewrite rot_h. generalize (drop 1 l ++ take 1 l). induction l as [|a l IH]; intros k; [done|]. destruct k as [|b k]; [done|]. simpl. by rewrite IH. Qed.
  Lemma dups_h {A B} `{EqDecision A, EqDecision B} (f : A -> B) (Hf : Inj (=) (=) f) (l : list A) : remove_dups (f <$> l) = f <$> remove_dups l.
  Proof using.
    induction l as [|a l IH]; [done|]. rewrite fmap_cons. simpl. assert (f a ∈ f <$> l <-> a ∈ l) as E.
    { split; [|apply elem_of_list_fmap_1]. intros E. apply elem_of_list_fmap in E as (y & E & Hy). by apply Hf in E as ->. }
    destruct (decide_rel elem_of (f a) (f <$> l)), (decide_rel elem_of a l); try tauto. simpl. by rewrite IH.
  Qed.
  Lemma inter_h {A B} `{EqDecision A, EqDecision B} (f : A -> B) (Hf : Inj (=) (=) f) (a b : list A) : setInter (f <$> a) (f <$> b) = f <$> setInter a b.
  Proof using.
    unfold setInter. rewrite (dups_h f Hf). generalize (remove_dups a). intros l. induction l as [|x l IH]; [done|]. rewrite fmap_cons. simpl.
    assert (f x ∈ f <$> b <-> x ∈ b) as E.
    { split; [|apply elem_of_list_fmap_1]. intros E. apply elem_of_list_fmap in E as (y & E & Hy). by apply Hf in E as ->. }
    destruct (decide_rel elem_of (f x) (f <$> b)), (decide_rel elem_of x b); try tauto. simpl. by rewrite IH.
  Qed.
  Lemma diff_h {A B} `{EqDecision A, EqDecision B} (f : A -> B) (Hf : Inj (=) (=) f) (a b : list A) : setDiff (f <$> a) (f <$> b) = f <$> setDiff a b.
  Proof using.
    unfold setDiff. rewrite (dups_h f Hf). generalize (remove_dups a). intros l. induction l as [|x l IH]; [done|]. rewrite fmap_cons. simpl.
    assert (f x ∈ f <$> b <-> x ∈ b) as E.
    { split; [|apply elem_of_list_fmap_1]. intros E. apply elem_of_list_fmap in E as (y & E & Hy). by apply Hf in E as ->. }
    destruct (decide_rel elem_of (f x) (f <$> b)), (decide_rel elem_of x b); try tauto. simpl. by rewrite IH.
  Qed.
  Lemma pos_h {A B} `{EqDecision A, EqDecision B} (f : A -> B) (Hf : Inj (=) (=) f) x (l : list A) : findPos (f x) (f <$> l) = findPos x l.
  Proof using.
    induction l as [|y l IH]; [done|]. rewrite fmap_cons. simpl. rewrite IH. destruct (decide (x = y)) as [->|E]; [by rewrite decide_True|]. rewrite decide_False; [done|]. intros E2. by apply Hf in E2.
  Qed.
  Definition sel (p e : Z * Z) : bool := negb (p.1 =? e.1) && negb (p.1 =? e.2) && negb (p.2 =? e.1) && negb (p.2 =? e.2).
  Lemma find_h p (l : list (Z * Z)) : List.find (sel (hp p)) (hp <$> l) = hp <$> List.find (sel p) l.
  Proof using Hi Hm Hs. induction l as [|e l IH]; [done|]. rewrite fmap_cons. simpl. assert (sel (hp p) (hp e) = sel p e) as -> by (unfold sel, hp; simpl; by rewrite !h_eqb). by destruct (sel p e). Qed.
  Lemma swap_h (l : list (Z * Z)) : (fun p : Z * Z => (p.2, p.1)) <$> (hp <$> l) = hp <$> ((fun p : Z * Z => (p.2, p.1)) <$> l).
  Proof using. rewrite <- !list_fmap_compose. done. Qed.
  Lemma orient_h (b r s : list Z) : orientOppositeFace (h <$> b) (h <$> r) (h <$> s) = H <$> orientOppositeFace b r s.
  Proof using Hi Hm Hs.
    unfold orientOppositeFace. rewrite (inter_h h Hi), !zl, !ring_h, swap_h, !(inter_h hp hp_inj), zl.
    destruct (negb _); [done|].
    set (tmp0 := setInter (ringEdges b) (ringEdges s)). set (sw := (fun p => (p.2, p.1)) <$> ringEdges s).
    assert (exists se tp, (if zlen tmp0 =? 0 then (hp <$> sw, hp <$> setInter (ringEdges b) sw) else (hp <$> ringEdges s, hp <$> tmp0)) = (hp <$> se, hp <$> tp) /\
      (if zlen tmp0 =? 0 then (sw, setInter (ringEdges b) sw) else (ringEdges s, tmp0)) = (se, tp)) as (se & tp & -> & ->) by (destruct (zlen tmp0 =? 0); eauto).
    destruct tp as [|p [|]]; [done| |done]. rewrite !fmap_cons, fmap_nil. cbv beta iota.
    pose proof (find_h p se) as F. unfold sel in F. rewrite F. destruct (List.find _ se) as [e|]; [|done].
    change (fmap (M := option) hp (Some e)) with (Some (hp e)). cbv beta iota. change ((hp e).2, (hp e).1) with (hp (e.2, e.1)). rewrite !(pos_h hp hp_inj). destruct (findPos p (ringEdges b)); [|done]. destruct (findPos (e.2, e.1) (ringEdges r)); [|done]. cbv zeta. rewrite rot_h. done.
  Qed.

  Lemma arrange_h (l : list Z) n a b k : tryToArrangeOppositeFace (h <$> l) n a b k = rmap (fmap H) (tryToArrangeOppositeFace l n a b k).
  Proof using Hi Hm Hs.
    unfold tryToArrangeOppositeFace. rewrite rdn_h, bind_rmap, rmap_bind. apply bind_ext. intros bf. rewrite rdn_h, bind_rmap, rmap_bind. apply bind_ext. intros op.
    set (g := fun x : Z * Z * option (list Z) => (x.1.1, x.1.2, H <$> x.2)).
    assert (take 1 (h <$> op) ++ rev (drop 1 (h <$> op)) = h <$> (take 1 op ++ rev (drop 1 op))) as ->.
    { rewrite <- fmap_take, <- fmap_drop, fmap_app. f_equal. unfold fmap, list_fmap. symmetry. apply (map_rev h). }
    rewrite rmap_bind. match goal with |- bind (forZ 0 k _ ?s0) _ = bind (forZ 0 k ?f ?s1) _ => change s0 with (g s1); rewrite (forZ_rmap g f) end.
    - rewrite bind_rmap. apply bind_ext. intros [[c s] o]. done.
    - intros i [[c s] o]. unfold g at 1. simpl. destruct o as [o|]; [|done]. simpl. rewrite rmap_bind.
      destruct (negb (c =? a) && negb (c =? b)).
      + destruct (s =? 0).
        * rewrite rdn_h, bind_rmap. destruct (rdn l c 4); simpl; try done. rewrite findSep_h, orient_h, rmap_bind. done.
        * simpl. rewrite findSep_h, rmap_bind. done.
      + simpl. rewrite findSep_h, rmap_bind. done.
  Qed.
  Lemma opt_h (o : option (list Z)) (t : Z) (base l : list Z) : match H <$> o with Some tmp2 => Ok (t, (h <$> base) ++ tmp2) | None => Ok (NORM_POLYHED, h <$> l) end =
    rmap hc (match o with Some tmp2 => Ok (t, base ++ tmp2) | None => Ok (NORM_POLYHED, l) end).
  Proof using. destruct o; simpl; [|done]. unfold hc. simpl. by rewrite fmap_app. Qed.
  Lemma hex_h (l t : list Z) : tryToUnPolyHex8 (h <$> l) t = rmap hc (tryToUnPolyHex8 l t).
  Proof using Hi Hm Hs.
    unfold tryToUnPolyHex8. destruct (forallb _ t); [|done]. rewrite rdn_h, bind_rmap, rmap_bind. apply bind_ext. intros c1. rewrite rmap_bind.
    match goal with |- bind (forZ 1 6 ?f _) _ = bind (forZ 1 6 ?f' _) _ => rewrite (forZ_same f' f) end.
    - apply bind_ext. intros o. destruct (1 <=? o); [|done]. rewrite arrange_h, bind_rmap, rmap_bind. apply bind_ext. intros x. apply opt_h.
    - intros i o. destruct (o <? 0); [|done]. rewrite rdn_h, bind_rmap. apply bind_ext. intros c2. by rewrite (inter_h h Hi), zl.
  Qed.
  Lemma hexp_h (l t : list Z) : tryToUnPolyHexp12 (h <$> l) t = rmap hc (tryToUnPolyHexp12 l t).
  Proof using Hi Hm Hs.
    unfold tryToUnPolyHexp12. destruct (_ && _); [|done]. rewrite findSep_h, rmap_bind. apply bind_ext. intros e0. destruct (_ =? 6); [|done].
    rewrite findSep_h, rmap_bind. apply bind_ext. intros e1. destruct (_ =? 6); [|done].
    rewrite rdn_h, bind_rmap, rmap_bind. apply bind_ext. intros c1. rewrite rdn_h, bind_rmap, rmap_bind. apply bind_ext. intros c2. rewrite (inter_h h Hi), zl. destruct (_ =? 0); [|done].
    rewrite arrange_h, bind_rmap, rmap_bind. apply bind_ext. intros x. apply opt_h.
  Qed.
  Lemma penta_h (l t : list Z) : tryToUnPolyPenta6 (h <$> l) t = rmap hc (tryToUnPolyPenta6 l t).
  Proof using Hi Hm Hs.
    unfold tryToUnPolyPenta6, faceAt. destruct (_ && _); [|done]. rewrite faceStart_h, rmap_bind. apply bind_ext. intros a. rewrite faceStart_h, rmap_bind. apply bind_ext. intros b.
    rewrite rdn_h, bind_rmap, rmap_bind. apply bind_ext. intros c1. rewrite rdn_h, bind_rmap, rmap_bind. apply bind_ext. intros c2. rewrite (inter_h h Hi), zl. destruct (_ =? 0); [|done].
    rewrite arrange_h, bind_rmap, rmap_bind. apply bind_ext. intros x. apply opt_h.
  Qed.
  Definition ha (s : bool * Z) : bool * Z := (s.1, h s.2).
  Lemma apex_h (b c : list Z) s : apexStep (h <$> b) (h <$> c) (ha s) = ha (apexStep b c s).
  Proof using Hi Hm Hs.
    unfold apexStep. rewrite (diff_h h Hi), (inter_h h Hi), zl. destruct (setDiff c b) as [|q [|]]; [done| |done]. rewrite fmap_cons. simpl (h <$> []). cbv beta iota. simpl. destruct (_ =? 2); [|done].
    rewrite Hs. destruct (0 <=? s.2); [|done]. rewrite h_eqb. done.
  Qed.
  Lemma pyra_h (l t : list Z) : tryToUnPolyPyra5 (h <$> l) t = rmap hc (tryToUnPolyPyra5 l t).
  Proof using Hi Hm Hs.
    unfold tryToUnPolyPyra5, faceAt. destruct (_ && _); [|done]. rewrite faceStart_h, rmap_bind. apply bind_ext. intros a. rewrite rdn_h, bind_rmap, rmap_bind. apply bind_ext. intros q.
    set (g := fun x : Z * (bool * Z) => (x.1, ha x.2)). rewrite rmap_bind.
    match goal with |- bind (forZ 0 5 _ _) _ = bind (forZ 0 5 ?f _) _ => assert (forall f', (forall i s, f' i (g s) = rmap g (f i s)) -> forZ 0 5 f' (0, (true, -1)) = rmap g (forZ 0 5 f (0, (true, -1)))) as E end.
    { intros f' Hf. rewrite <- (forZ_rmap g _ f' 0 5 (0, (true, -1)) Hf). unfold g, ha. simpl. by rewrite Hm. }
    rewrite E; clear E.
    - rewrite bind_rmap. apply bind_ext. intros [w [ok p]]. unfold g, ha. simpl. rewrite Hs. destruct (ok && _); [|done]. simpl. unfold hc. simpl. rewrite fmap_app. done.
    - intros i [w [ok p]]. unfold g at 1, ha at 1. simpl. destruct ok; [|done]. simpl. rewrite rmap_bind. destruct (negb _).
      + rewrite rdn_h, bind_rmap. destruct (rdn l w 3); simpl; try done. rewrite findSep_h, rmap_bind. apply bind_ext. intros e. unfold g. simpl. f_equal. f_equal. change (true, h p) with (ha (true, p)). apply apex_h.
      + simpl. rewrite findSep_h, rmap_bind. done.
  Qed.
  Lemma tetra_h (l t : list Z) : tryToUnPolyTetra4 (h <$> l) t = rmap hc (tryToUnPolyTetra4 l t).
  Proof using Hi Hm Hs.
    unfold tryToUnPolyTetra4. destruct (forallb _ _); [|done]. rewrite rdn_h, bind_rmap, rmap_bind. apply bind_ext. intros q. rewrite rmap_bind.
    match goal with |- bind (forZ 1 4 _ _) _ = bind (forZ 1 4 ?f _) _ => assert (forall f', (forall i s, f' i (ha s) = rmap ha (f i s)) -> forZ 1 4 f' (true, -1) = rmap ha (forZ 1 4 f (true, -1))) as E end.
    { intros f' Hf. rewrite <- (forZ_rmap ha _ f' 1 4 (true, -1) Hf). unfold ha. simpl. by rewrite Hm. }
    rewrite E; clear E.
    - rewrite bind_rmap. apply bind_ext. intros [ok p]. unfold ha. simpl. rewrite Hs. destruct (ok && _); [|done]. simpl. unfold hc. simpl. rewrite fmap_app. done.
    - intros i [ok p]. unfold ha at 1. simpl. destruct ok; [|done]. simpl.
      rewrite rdn_h, bind_rmap, rmap_bind. apply bind_ext. intros c. simpl. f_equal. change (true, h p) with (ha (true, p)). apply apex_h.
  Qed.
  Lemma size_h (l : list Z) : zlen (filter (fun x => x <> -1) (remove_dups (h <$> l))) = zlen (filter (fun x => x <> -1) (remove_dups l)).
  Proof using Hi Hm Hs.
    rewrite (dups_h h Hi). generalize (remove_dups l). clear l. intros l. induction l as [|a l IH]; [done|]. rewrite fmap_cons, !filter_cons. pose proof (h_m1 a).
    destruct (decide (h a <> -1)), (decide (a <> -1)); try lia; unfold zlen in *; simpl; lia.
  Qed.
  Lemma unpoly3_h (l t : list Z) : tryToUnPoly3D (h <$> l) t = rmap hc (tryToUnPoly3D l t).
  Proof using Hi Hm Hs.
    unfold tryToUnPoly3D. rewrite size_h. repeat (destruct (_ =? _); [first [apply hex_h|apply hexp_h|apply penta_h|apply pyra_h|apply tetra_h]|]). done.
  Qed.
  Lemma simplify_h ty c (l : list Z) : GetCellModel ty = Ok c -> cm_dim c = 3 -> simplifyDegeneratedCell ty (h <$> l) = rmap hc (simplifyDegeneratedCell ty l).
  Proof using Hi Hm Hs.
    intros Hc Hd. unfold simplifyDegeneratedCell. rewrite Hc. cbn [bind]. rewrite size_h, zl, Hd. change (3 =? 3) with true. change (3 =? 2) with false.
    destruct (_ || _); [done|]. cbv iota. rewrite full_h, bind_rmap, rmap_bind. apply bind_ext. intros [w f]. simpl. apply unpoly3_h.
  Qed.
End rename.
