From Coq Require Import QArith Qabs Lqa ZifyBool ZifyNat.
From Verif Require Import Base DataArray TreeModel TreeSpec.
Local Open Scope Z_scope.

(** * Building a tree *)
Definition listed (elems : option (list Z)) (nb : Z) (ids : list Z) : Prop :=
  match elems with Some l => ids = l /\ nb = zlen l | None => ids = seqZ 0 nb /\ 0 <= nb end.

Lemma foldM_rd {A S} (g : A -> S -> res S) (l p : list A) (s : S) :
  foldM (fun s i => let* e := rd (p ++ l) i in g e s) (seqZ (zlen p) (zlen l)) s = foldM (fun s e => g e s) l s.
Proof.
  revert p s. induction l as [|x l IH]; intros p s; [done|].
  rewrite zlen_cons. rewrite seqZ_cons by (pose proof (zlen_nonneg l); lia). cbn [foldM].
  rewrite (rd_ok (p ++ x :: l) (zlen p) x); [|rewrite zlook_app_r, Z.sub_diag by lia; done]. cbn [bind]. destruct (g x s) as [s'| | |]; try done. cbn [bind].
  replace (Z.succ (zlen p)) with (zlen (p ++ [x])) by (rewrite zlen_app, zlen_cons, zlen_nil; lia). replace (Z.pred (1 + zlen l)) with (zlen l) by lia.
  rewrite <- (IH (p ++ [x]) s'). by rewrite <- app_assoc.
Qed.
Lemma loop_elems {S} elems nb ids (g : Z -> S -> res S) (s : S) : listed elems nb ids ->
  forZ 0 nb (fun i s => let* e := elemAt elems i in g e s) s = foldM (fun s e => g e s) ids s.
Proof.
  unfold forZ. intros H. rewrite Z.sub_0_r. destruct elems as [l|]; destruct H as [-> H]; [subst nb|done].
  apply (foldM_rd g l [] s).
Qed.
Lemma foldM_push {A B} (key : A -> res B) (k : A -> B) (ids : list A) (acc : list B) : (forall e, e ∈ ids -> key e = Ok (k e)) ->
  foldM (fun l e => let* x := key e in Ok (l ++ [x])) ids acc = Ok (acc ++ map k ids).
Proof.
  revert acc. induction ids as [|e ids IH]; intros acc H; [by rewrite app_nil_r|]. cbn [foldM map]. rewrite (H e) by set_solver. cbn [bind].
  rewrite IH by set_solver. by rewrite <- app_assoc.
Qed.
Lemma fill_ok elems nb ids : listed elems nb ids -> FillDataTerminal elems nb = Ok ids.
Proof.
  intros H. unfold FillDataTerminal. rewrite (loop_elems elems nb ids (fun e l => Ok (l ++ [e]))) by done.
  pose proof (foldM_push (fun e : Z => Ok e) (fun e => e) ids [] ltac:(done)) as E. cbn [bind] in E. rewrite E. cbn. by rewrite map_id.
Qed.
Lemma nodes_ok key k elems nb ids : listed elems nb ids -> (forall e, e ∈ ids -> key e = Ok (k e)) -> FillDataNotTerminal key elems nb = Ok (map k ids).
Proof.
  intros H Hk. unfold FillDataNotTerminal. rewrite (loop_elems elems nb ids (fun e l => let* x := key e in Ok (l ++ [x]))) by done. by rewrite (foldM_push key k) by done.
Qed.
Lemma listed_len elems nb ids : listed elems nb ids -> zlen ids = nb.
Proof. destruct elems; intros [-> H]; [done|]. unfold zlen. rewrite seqZ_length. lia. Qed.
Lemma insert_len x l : length (insert x l) = Datatypes.S (length l).
Proof. induction l as [|y l IH]; cbn; [done|]. destruct (Qle_bool x y); cbn; [done|]. by rewrite IH. Qed.
Lemma nth_ok (l : list Q) k : 0 <= k < zlen l -> exists m, nthElement l k = Ok m.
Proof.
  intros H. unfold nthElement. assert (E : zlen (fold_right insert [] l) = zlen l).
  { clear H. unfold zlen. f_equal. induction l as [|x l IH]; [done|]. cbn [fold_right length]. by rewrite insert_len, IH. }
  destruct (zlook_lt (fold_right insert [] l) k ltac:(lia)) as [m Hm]. exists m. by apply rd_ok.
Qed.
Lemma ltb_spec a b : ltb a b = true <-> (a < b)%Q.
Proof. unfold ltb. split; intros H. - apply negb_true_iff in H. apply Qnot_le_lt. intros Hx. apply Qle_bool_iff in Hx. congruence. - apply negb_true_iff. destruct (Qle_bool b a) eqn:E; [|done]. apply Qle_bool_iff in E. lra. Qed.
Lemma ltb_false a b : ltb a b = false <-> (b <= a)%Q.
Proof. unfold ltb. rewrite negb_false_iff. apply Qle_bool_iff. Qed.

(** The sides of a split: the bounds hold, and the elements are shared out. *)
Lemma split_ok toRight lo hi (l h : Z -> Q) elems nb ids median : listed elems nb ids -> (forall e, e ∈ ids -> lo e = Ok (l e) /\ hi e = Ok (h e)) ->
  exists L mL R mR, split toRight lo hi elems nb median = Ok (L, mL, R, mR) /\ L ++ R ≡ₚ ids /\
    (forall e, e ∈ L -> h e <= mL)%Q /\ (forall e, e ∈ R -> mR <= l e)%Q.
Proof.
  intros H Hk. unfold split.
  match goal with |- context [forZ 0 nb ?body ?s0] => set (s := s0); 
    pose (g := fun (e : Z) '((lft, max_left, rgt, min_right) : list Z * Q * list Z * Q) => let* mx := hi e in let* mn := lo e in
      if toRight mn median then Ok (lft, max_left, rgt ++ [e], if ltb mn min_right then mn else min_right)
      else Ok (lft ++ [e], if ltb max_left mx then mx else max_left, rgt, min_right));
    replace (forZ 0 nb body s) with (foldM (fun s e => g e s) ids s) end.
  2: { rewrite <- (loop_elems elems nb ids g s H). unfold forZ. apply foldM_ext. intros [[[a b] c] d] i. by destruct (elemAt elems i). }
  assert (P : exists L mL R mR, foldM (fun s e => g e s) ids s = Ok (L, mL, R, mR) /\ L ++ R ≡ₚ [] ++ ids /\ (forall e, e ∈ L -> h e <= mL)%Q /\ (forall e, e ∈ R -> mR <= l e)%Q); [|done].
  assert (G : forall pre rest L mL R mR, (forall e, e ∈ rest -> lo e = Ok (l e) /\ hi e = Ok (h e)) -> L ++ R ≡ₚ pre -> (forall e, e ∈ L -> h e <= mL)%Q -> (forall e, e ∈ R -> mR <= l e)%Q ->
    exists L' mL' R' mR', foldM (fun s e => g e s) rest (L, mL, R, mR) = Ok (L', mL', R', mR') /\ L' ++ R' ≡ₚ pre ++ rest /\ (forall e, e ∈ L' -> h e <= mL')%Q /\ (forall e, e ∈ R' -> mR' <= l e)%Q).
  { intros pre rest. revert pre. induction rest as [|e rest IH]; intros pre L mL R mR Hr HP HL HR.
    - exists L, mL, R, mR. rewrite app_nil_r. done.
    - cbn [foldM]. unfold g at 1. destruct (Hr e) as [E1 E2]; [set_solver|]. rewrite E1, E2. cbn [bind].
      destruct (toRight (l e) median); cbn [bind].
      + destruct (IH (pre ++ [e]) L mL (R ++ [e]) (if ltb (l e) mR then l e else mR)) as (L' & mL' & R' & mR' & Q1 & Q2 & Q3 & Q4); [set_solver| |done| |].
        * rewrite app_assoc. by rewrite HP.
        * intros e' He'. destruct (ltb (l e) mR) eqn:Elt; [apply ltb_spec in Elt|apply ltb_false in Elt]; apply elem_of_app in He' as [He'|He'%elem_of_list_singleton]; try (subst e'); try (specialize (HR e' He')); lra.
        * exists L', mL', R', mR'. rewrite <- app_assoc in Q2. done.
      + destruct (IH (pre ++ [e]) (L ++ [e]) (if ltb mL (h e) then h e else mL) R mR) as (L' & mL' & R' & mR' & Q1 & Q2 & Q3 & Q4); [set_solver| | |done|].
        * rewrite <- HP. rewrite <- !app_assoc. apply Permutation_app_head. apply Permutation_app_comm.
        * intros e' He'. destruct (ltb mL (h e)) eqn:Elt; [apply ltb_spec in Elt|apply ltb_false in Elt]; apply elem_of_app in He' as [He'|He'%elem_of_list_singleton]; try (subst e'); try (specialize (HL e' He')); lra.
        * exists L', mL', R', mR'. rewrite <- app_assoc in Q2. done. }
  apply G; [done|done|set_solver|set_solver].
Qed.
Lemma fromVect_listed l : listed (fromVect l) (zlen l) l.
Proof. destruct l; cbn; [done|]. done. Qed.

Fixpoint elts (t : tree) : list Z := match t with Leaf _ es => es | Node _ _ _ l r => elts l ++ elts r end.
(** The invariant of a tree: the bounds of its nodes hold for what is below. *)
Fixpoint good (lo hi : Z -> Z -> Q) (dim n : Z) (s : Q) (t : tree) : Prop :=
  match t with
  | Leaf _ es => forall e, e ∈ es -> 0 <= e < n
  | Node level mL mR l r => 0 <= level /\ (forall e, e ∈ elts l -> hi e (level mod dim)%Z + s <= mL)%Q /\ (forall e, e ∈ elts r -> mR <= lo e (level mod dim)%Z - s)%Q /\
      good lo hi dim n s l /\ good lo hi dim n s r
  end.
Lemma terminal_false level nb : terminal level nb = false -> 15 <= nb /\ level <= 20.
Proof. unfold terminal, MIN_NB_ELEMS, MAX_LEVEL. lia. Qed.

Lemma bmin_ok bbs dim n e k : boxes bbs dim n -> 0 <= e < n -> 0 <= k < dim -> bmin bbs dim k e = Ok (lower bbs dim e k).
Proof.
  intros (Hd & Hn & Hl) He Hk. unfold bmin, lower. destruct (zlook_lt bbs (e * dim * 2 + k * 2)) as [x Hx]; [split; nia|]. rewrite (rd_ok _ _ _ Hx), Hx. done.
Qed.
Lemma bmax_ok bbs dim n e k : boxes bbs dim n -> 0 <= e < n -> 0 <= k < dim -> bmax bbs dim k e = Ok (upper bbs dim e k).
Proof.
  intros (Hd & Hn & Hl) He Hk. unfold bmax, upper. destruct (zlook_lt bbs (e * dim * 2 + k * 2 + 1)) as [x Hx]; [split; nia|]. rewrite (rd_ok _ _ _ Hx), Hx. done.
Qed.
Lemma coord_ok pts dim n e k : points pts dim n -> 0 <= e < n -> 0 <= k < dim -> coord pts dim k e = Ok (at_ pts dim e k).
Proof.
  intros (Hd & Hn & Hl) He Hk. unfold coord, at_. destruct (zlook_lt pts (e * dim + k)) as [x Hx]; [split; nia|]. rewrite (rd_ok _ _ _ Hx), Hx. done.
Qed.
Definition zat (v : list Z) (dim e k : Z) : Z := default 0 (v @ (e * dim + k)).
Lemma discrete_ok v dim n e k : points v dim n -> 0 <= e < n -> 0 <= k < dim -> discrete v dim k e = Ok (inject_Z (zat v dim e k)).
Proof.
  intros (Hd & Hn & Hl) He Hk. unfold discrete, zat. destruct (zlook_lt v (e * dim + k)) as [x Hx]; [split; nia|]. rewrite (rd_ok _ _ _ Hx), Hx. done.
Qed.
Lemma mod_axis level dim : 1 <= dim -> 0 <= level mod dim < dim.
Proof. intros. apply Z.mod_pos_bound. lia. Qed.

Lemma buildBB_ok bbs dim n eps fuel : boxes bbs dim n -> forall elems level nb ids, listed elems nb ids -> (forall e, e ∈ ids -> 0 <= e < n) -> 0 <= level -> 21 - level <= Z.of_nat fuel ->
  exists t, buildBB fuel bbs dim eps elems level nb = Ok t /\ elts t ≡ₚ ids /\ good (lower bbs dim) (upper bbs dim) dim n (Qabs eps) t.
Proof.
  intros HB. pose proof HB as (Hd & _). induction fuel as [|f IH]; intros elems level nb ids Hids Hr Hlev Hf; cbn [buildBB]; destruct (terminal level nb) eqn:Et.
  1, 3: rewrite (fill_ok elems nb ids Hids); cbn [bind]; exists (Leaf level ids); done.
  - apply terminal_false in Et. lia.
  - apply terminal_false in Et. pose proof (listed_len _ _ _ Hids) as Hlen. pose proof (mod_axis level dim Hd) as Hk. cbv zeta.
    rewrite (nodes_ok _ (fun e => lower bbs dim e (level mod dim)) _ _ ids Hids) by (intros e He; apply bmin_ok with n; auto). cbn [bind].
    destruct (nth_ok (map (fun e => lower bbs dim e (level mod dim)) ids) (nb / 2)) as [m Em].
    { unfold zlen in *. rewrite map_length. rewrite Hlen. split; [apply Z.div_pos; lia|apply Z.div_lt; lia]. }
    rewrite Em. cbn [bind].
    destruct (split_ok bigger (bmin bbs dim (level mod dim)) (bmax bbs dim (level mod dim)) (fun e => lower bbs dim e (level mod dim)) (fun e => upper bbs dim e (level mod dim)) elems nb ids m Hids) as (L & mL & R & mR & Es & HP & HL & HR).
    { intros e He. split; [eapply bmin_ok|eapply bmax_ok]; eauto. }
    rewrite Es. cbn [bind].
    destruct (IH (fromVect L) (level + 1) (zlen L) L (fromVect_listed L)) as (tl & El & Pl & Gl); [intros e He; apply Hr; rewrite <- HP; set_solver|lia|lia|].
    destruct (IH (fromVect R) (level + 1) (zlen R) R (fromVect_listed R)) as (tr & Er & Pr & Gr); [intros e He; apply Hr; rewrite <- HP; set_solver|lia|lia|].
    rewrite El, Er. cbn [bind]. eexists. split; [done|]. cbn [elts good]. split; [by rewrite Pl, Pr|]. split; [done|].
    split; [|split; [|done]]; intros e He; [rewrite Pl in He; specialize (HL e He)|rewrite Pr in He; specialize (HR e He)]; cbn in *; lra.
Qed.
Lemma buildPts_ok pts dim n fuel : points pts dim n -> forall eps elems level nb ids, listed elems nb ids -> (forall e, e ∈ ids -> 0 <= e < n) -> 0 <= level -> 21 - level <= Z.of_nat fuel ->
  exists t, buildPts fuel pts dim eps elems level nb = Ok t /\ elts t ≡ₚ ids /\ good (at_ pts dim) (at_ pts dim) dim n (Qabs eps) t.
Proof.
  intros HB. pose proof HB as (Hd & _). induction fuel as [|f IH]; intros eps elems level nb ids Hids Hr Hlev Hf; cbn [buildPts]; cbv zeta; pose proof (mod_axis level dim Hd) as Hk;
    rewrite (fill_ok elems nb ids Hids); cbn [bind]; rewrite (nodes_ok _ (fun e => at_ pts dim e (level mod dim)) _ _ ids Hids) by (intros e He; apply coord_ok with n; auto); cbn [bind];
    destruct (terminal level nb) eqn:Et.
  1, 3: exists (Leaf level ids); done.
  - apply terminal_false in Et. lia.
  - apply terminal_false in Et. pose proof (listed_len _ _ _ Hids) as Hlen.
    destruct (nth_ok (map (fun e => at_ pts dim e (level mod dim)) ids) (nb / 2)) as [m Em].
    { unfold zlen in *. rewrite map_length. rewrite Hlen. split; [apply Z.div_pos; lia|apply Z.div_lt; lia]. }
    rewrite Em. cbn [bind].
    destruct (split_ok bigger (coord pts dim (level mod dim)) (coord pts dim (level mod dim)) (fun e => at_ pts dim e (level mod dim)) (fun e => at_ pts dim e (level mod dim)) elems nb ids m Hids) as (L & mL & R & mR & Es & HP & HL & HR).
    { intros e He. split; eapply coord_ok; eauto. }
    rewrite Es. cbn [bind].
    destruct (IH (Qabs eps) (fromVect L) (level + 1) (zlen L) L (fromVect_listed L)) as (tl & El & Pl & Gl); [intros e He; apply Hr; rewrite <- HP; set_solver|lia|lia|].
    destruct (IH (Qabs eps) (fromVect R) (level + 1) (zlen R) R (fromVect_listed R)) as (tr & Er & Pr & Gr); [intros e He; apply Hr; rewrite <- HP; set_solver|lia|lia|].
    rewrite El, Er. cbn [bind]. eexists. split; [done|]. cbn [elts good]. split; [by rewrite Pl, Pr|]. split; [done|].
    assert (Eq : forall t, good (at_ pts dim) (at_ pts dim) dim n (Qabs (Qabs eps)) t -> good (at_ pts dim) (at_ pts dim) dim n (Qabs eps) t).
    { assert (E : (Qabs (Qabs eps) == Qabs eps)%Q) by (apply Qabs_pos, Qabs_nonneg). induction t as [|lev a b t1 IH1 t2 IH2]; cbn [good]; [done|].
      intros (G0 & G1 & G2 & G3 & G4). split; [done|]. split; [|split; [|auto]]; intros e He; [specialize (G1 e He)|specialize (G2 e He)]; lra. }
    split; [|split; [|split; auto]]; intros e He; [rewrite Pl in He; specialize (HL e He)|rewrite Pr in He; specialize (HR e He)]; cbn in *; lra.
Qed.
Lemma buildDiscrete_ok v dim n fuel : points v dim n -> forall elems level nb ids, listed elems nb ids -> (forall e, e ∈ ids -> 0 <= e < n) -> 0 <= level -> 21 - level <= Z.of_nat fuel ->
  exists t, buildDiscrete fuel v dim elems level nb = Ok t /\ elts t ≡ₚ ids /\ good (fun e k => inject_Z (zat v dim e k)) (fun e k => inject_Z (zat v dim e k)) dim n 0 t.
Proof.
  intros HB. pose proof HB as (Hd & _). induction fuel as [|f IH]; intros elems level nb ids Hids Hr Hlev Hf; cbn [buildDiscrete]; cbv zeta; pose proof (mod_axis level dim Hd) as Hk;
    rewrite (fill_ok elems nb ids Hids); cbn [bind]; rewrite (nodes_ok _ (fun e => inject_Z (zat v dim e (level mod dim))) _ _ ids Hids) by (intros e He; apply discrete_ok with n; auto); cbn [bind];
    destruct (terminal level nb) eqn:Et.
  1, 3: exists (Leaf level ids); done.
  - apply terminal_false in Et. lia.
  - apply terminal_false in Et. pose proof (listed_len _ _ _ Hids) as Hlen.
    destruct (nth_ok (map (fun e => inject_Z (zat v dim e (level mod dim))) ids) (nb / 2)) as [m Em].
    { unfold zlen in *. rewrite map_length. rewrite Hlen. split; [apply Z.div_pos; lia|apply Z.div_lt; lia]. }
    rewrite Em. cbn [bind].
    destruct (split_ok atLeast (discrete v dim (level mod dim)) (discrete v dim (level mod dim)) (fun e => inject_Z (zat v dim e (level mod dim))) (fun e => inject_Z (zat v dim e (level mod dim))) elems nb ids m Hids) as (L & mL & R & mR & Es & HP & HL & HR).
    { intros e He. split; eapply discrete_ok; eauto. }
    rewrite Es. cbn [bind].
    destruct (IH (fromVect L) (level + 1) (zlen L) L (fromVect_listed L)) as (tl & El & Pl & Gl); [intros e He; apply Hr; rewrite <- HP; set_solver|lia|lia|].
    destruct (IH (fromVect R) (level + 1) (zlen R) R (fromVect_listed R)) as (tr & Er & Pr & Gr); [intros e He; apply Hr; rewrite <- HP; set_solver|lia|lia|].
    rewrite El, Er. cbn [bind]. eexists. split; [done|]. cbn [elts good]. split; [by rewrite Pl, Pr|]. split; [done|].
    split; [|split; [|done]]; intros e He; [rewrite Pl in He; specialize (HL e He)|rewrite Pr in He; specialize (HR e He)]; cbn in *; lra.
Qed.
Lemma all_listed n : 0 <= n -> listed None n (seqZ 0 n).
Proof. done. Qed.
Lemma BBTree_ok bbs dim n eps : boxes bbs dim n -> exists t, BBTree bbs dim n eps = Ok t /\ elts t ≡ₚ seqZ 0 n /\ good (lower bbs dim) (upper bbs dim) dim n (Qabs eps) t.
Proof. intros HB. apply (buildBB_ok bbs dim n eps); [done|apply all_listed; apply HB| |lia|done]. intros e He%elem_of_seqZ. lia. Qed.
Lemma BBTreePts_ok pts dim n eps : points pts dim n -> exists t, BBTreePts pts dim n eps = Ok t /\ elts t ≡ₚ seqZ 0 n /\ good (at_ pts dim) (at_ pts dim) dim n (Qabs eps) t.
Proof. intros HB. apply (buildPts_ok pts dim n); [done|apply all_listed; apply HB| |lia|done]. intros e He%elem_of_seqZ. lia. Qed.
Lemma BBTreeDiscrete_ok v dim n : points v dim n -> exists t, BBTreeDiscrete v dim n = Ok t /\ elts t ≡ₚ seqZ 0 n /\ good (fun e k => inject_Z (zat v dim e k)) (fun e k => inject_Z (zat v dim e k)) dim n 0 t.
Proof. intros HB. apply (buildDiscrete_ok v dim n); [done|apply all_listed; apply HB| |lia|done]. intros e He%elem_of_seqZ. lia. Qed.
