From Coq Require Import QArith Qabs Lqa ZifyBool ZifyNat.
From Verif Require Import Base DataArray TreeModel TreeSpec TreeProofs.
Local Open Scope Z_scope.

(** * The searches *)
Lemma loop_axes dim (body : Z -> bool -> res bool) (p : Z -> bool) : 0 <= dim -> (forall k b, 0 <= k < dim -> body k b = Ok (b && p k)) ->
  exists r, forZ 0 dim body true = Ok r /\ (r = true <-> forall k, 0 <= k < dim -> p k = true).
Proof.
  intros Hd Hb. assert (G : forall m, 0 <= m <= dim -> exists r, forZ 0 m body true = Ok r /\ (r = true <-> forall k, 0 <= k < m -> p k = true)).
  { intros m Hm. pose proof (Z2Nat.id m ltac:(lia)) as E. revert Hm. rewrite <- E. generalize (Z.to_nat m) as q. intros q. clear E. induction q as [|q IH]; intros Hm.
    - exists true. split; [done|]. split; [lia|done].
    - destruct IH as (r & E & Hr); [lia|]. rewrite Nat2Z.inj_succ. unfold forZ in *. rewrite Z.sub_0_r in *. unfold Z.succ. rewrite seqZ_app_r by lia.
      rewrite foldM_app, E. cbn [foldM bind]. rewrite Hb by lia. cbn [bind]. eexists. split; [done|]. rewrite andb_true_iff, Hr. split.
      + intros [H1 H2] k Hk. destruct (decide (k = Z.of_nat q)) as [->|]; [done|]. apply H1. lia.
      + intros H. split; [intros k Hk; apply H; lia|apply H; lia]. }
  apply G. lia.
Qed.
(** What a test tells of an element. *)
Definition tells (test : Z -> res bool) (n : Z) (P : Z -> Prop) : Prop := forall e, 0 <= e < n -> exists b : bool, test e = Ok b /\ (b = true <-> P e).
Definition says (test : Z -> res bool) (e : Z) : bool := match test e with Ok b => b | _ => false end.
Lemma says_ok test n P e : tells test n P -> 0 <= e < n -> test e = Ok (says test e) /\ (says test e = true <-> P e).
Proof. intros H He. unfold says. destruct (H e He) as (b & E & Hb). rewrite E. done. Qed.
Lemma leaf_ok test n P es acc : tells test n P -> (forall e, e ∈ es -> 0 <= e < n) ->
  foldM (fun elems e => let* b := test e in Ok (if b : bool then elems ++ [e] else elems)) es acc = Ok (acc ++ List.filter (says test) es).
Proof.
  intros HT. revert acc. induction es as [|e es IH]; intros acc H; [by rewrite app_nil_r|]. cbn [foldM List.filter]. destruct (says_ok test n P e HT) as [E _]; [set_solver|]. rewrite E. cbn [bind].
  rewrite IH by set_solver. destruct (says test e); [|done]. by rewrite <- app_assoc.
Qed.
Lemma leaf_count test n P es acc : tells test n P -> (forall e, e ∈ es -> 0 <= e < n) ->
  foldM (fun ret e => let* b := test e in Ok (if b : bool then ret + 1 else ret)) es acc = Ok (acc + zlen (List.filter (says test) es)).
Proof.
  intros HT. revert acc. induction es as [|e es IH]; intros acc H; [cbn; change (zlen (@nil Z)) with 0; f_equal; lia|]. cbn [foldM List.filter]. destruct (says_ok test n P e HT) as [E _]; [set_solver|]. rewrite E. cbn [bind].
  rewrite IH by set_solver. destruct (says test e); [rewrite zlen_cons|]; f_equal; lia.
Qed.
Lemma filter_none test n P es : tells test n P -> (forall e, e ∈ es -> 0 <= e < n /\ ~ P e) -> List.filter (says test) es = [].
Proof.
  intros HT H. induction es as [|e es IH]; [done|]. cbn. destruct (says_ok test n P e HT) as [_ E]; [apply H; set_solver|].
  destruct (says test e) eqn:Es; [|apply IH; set_solver]. exfalso. apply (H e); [set_solver|]. by apply E.
Qed.
Lemma filter_app (f : Z -> bool) l l' : List.filter f (l ++ l') = List.filter f l ++ List.filter f l'.
Proof. induction l; cbn; [done|]. destruct (f a); cbn; by rewrite IHl. Qed.
Lemma good_range lo hi dim n s t : good lo hi dim n s t -> forall e, e ∈ elts t -> 0 <= e < n.
Proof. induction t as [|lev a b l IHl r IHr]; cbn; [done|]. intros (_ & _ & _ & Gl & Gr) e He. apply elem_of_app in He as [He|He]; auto. Qed.
Lemma result_ok test n P t : tells test n P -> elts t ≡ₚ seqZ 0 n ->
  NoDup (List.filter (says test) (elts t)) /\ (forall e, e ∈ List.filter (says test) (elts t) <-> 0 <= e < n /\ P e).
Proof.
  intros HT HP. split.
  - assert (N : NoDup (elts t)) by (rewrite HP; apply NoDup_seqZ). revert N. generalize (elts t). induction l as [|e l IH]; [done|]. intros [N1 N2]%NoDup_cons. cbn.
    destruct (says test e); [|auto]. apply NoDup_cons. split; [|auto]. intros H. apply elem_of_list_In, filter_In in H as [H _]. apply N1. by apply elem_of_list_In.
  - intros e. rewrite elem_of_list_In, filter_In, <- elem_of_list_In, HP, elem_of_seqZ. split.
    + intros [He Hs]. split; [lia|]. apply (says_ok test n P e HT); [lia|done].
    + intros [He Hp]. split; [lia|]. apply (says_ok test n P e HT); [lia|done].
Qed.

(** ** Boxes that overlap a box *)
Definition is_box (bb : list Q) (dim : Z) : Prop := 2 * dim <= zlen bb.
Lemma box_lo bb dim k : is_box bb dim -> 0 <= k < dim -> rd bb (k * 2) = Ok (lower bb dim 0 k).
Proof. unfold is_box, lower. intros H Hk. destruct (zlook_lt bb (k * 2)) as [x Hx]; [lia|]. rewrite (rd_ok _ _ _ Hx). replace (0 * dim * 2 + k * 2) with (k * 2) by lia. by rewrite Hx. Qed.
Lemma box_hi bb dim k : is_box bb dim -> 0 <= k < dim -> rd bb (k * 2 + 1) = Ok (upper bb dim 0 k).
Proof. unfold is_box, upper. intros H Hk. destruct (zlook_lt bb (k * 2 + 1)) as [x Hx]; [lia|]. rewrite (rd_ok _ _ _ Hx). replace (0 * dim * 2 + k * 2 + 1) with (k * 2 + 1) by lia. by rewrite Hx. Qed.
Lemma intersects_ok bbs dim n eps bb : boxes bbs dim n -> is_box bb dim -> tells (intersects bbs dim eps bb) n (fun e => overlap bbs dim e eps bb 0).
Proof.
  intros HB Hb e He. unfold intersects.
  destruct (loop_axes dim (fun k b =>
    let* p := bmin bbs dim k e in let* q := bmax bbs dim k e in
    let* u := rd bb (k * 2 + 1) in let* v := rd bb (k * 2) in
    Ok (if ltb (- eps) (p - u) || ltb (q - v) eps then false else b))
    (fun k => negb (ltb (- eps) (lower bbs dim e k - upper bb dim 0 k) || ltb (upper bbs dim e k - lower bb dim 0 k) eps))) as (r & E & Hr).
  - destruct HB. lia.
  - intros k b Hk. rewrite (bmin_ok bbs dim n), (bmax_ok bbs dim n), (box_hi bb dim), (box_lo bb dim) by done. cbn [bind]. f_equal. destruct (ltb _ _ || ltb _ _), b; done.
  - exists r. split; [done|]. rewrite Hr. unfold overlap. split; intros H k Hk; specialize (H k Hk).
    + apply negb_true_iff, orb_false_iff in H as [H1 H2]. rewrite ltb_false in H1, H2. split; lra.
    + apply negb_true_iff, orb_false_iff. rewrite !ltb_false. destruct H. split; lra.
Qed.
Lemma abs_le eps : (- Qabs eps <= eps <= Qabs eps)%Q.
Proof. apply Qabs_Qle_condition. lra. Qed.
Lemma getIntersecting_ok bbs dim n eps bb t : boxes bbs dim n -> is_box bb dim -> good (lower bbs dim) (upper bbs dim) dim n (Qabs eps) t ->
  forall acc, getIntersectingElems bbs dim eps t bb acc = Ok (acc ++ List.filter (says (intersects bbs dim eps bb)) (elts t)).
Proof.
  intros HB Hb. pose proof (intersects_ok bbs dim n eps bb HB Hb) as HT. pose proof HB as (Hd & _). pose proof (abs_le eps) as Habs.
  induction t as [lev es|lev mL mR l IHl r IHr]; intros G acc.
  - cbn [getIntersectingElems elts]. by rewrite (leaf_ok _ n _ _ _ HT).
  - cbn [getIntersectingElems elts good] in *. destruct G as (Hlev & HL & HR & Gl & Gr). pose proof (mod_axis lev dim Hd) as Hk.
    rewrite (box_lo bb dim), (box_hi bb dim) by done. cbn [bind]. rewrite filter_app.
    destruct (ltb _ mR) eqn:E1; [|destruct (ltb mL _) eqn:E2].
    + rewrite IHl by done. rewrite (filter_none _ n _ (elts r) HT), app_nil_r; [done|]. intros e He. split; [eapply good_range; [exact Gr|exact He]|].
      intros H. specialize (H _ Hk). specialize (HR e He). apply ltb_spec in E1. lra.
    + rewrite IHr by done. rewrite (filter_none _ n _ (elts l) HT); [done|]. intros e He. split; [eapply good_range; [exact Gl|exact He]|].
      intros H. specialize (H _ Hk). specialize (HL e He). apply ltb_spec in E2. lra.
    + rewrite IHl by done. cbn [bind]. rewrite IHr by done. by rewrite <- app_assoc.
Qed.
Lemma getNb_ok bbs dim n eps bb t : boxes bbs dim n -> is_box bb dim -> good (lower bbs dim) (upper bbs dim) dim n (Qabs eps) t ->
  getNbOfIntersectingElems bbs dim eps t bb = Ok (zlen (List.filter (says (intersects bbs dim eps bb)) (elts t))).
Proof.
  intros HB Hb. pose proof (intersects_ok bbs dim n eps bb HB Hb) as HT. pose proof HB as (Hd & _). pose proof (abs_le eps) as Habs.
  induction t as [lev es|lev mL mR l IHl r IHr]; intros G.
  - cbn [getNbOfIntersectingElems elts]. by rewrite (leaf_count _ n _ _ _ HT).
  - cbn [getNbOfIntersectingElems elts good] in *. destruct G as (Hlev & HL & HR & Gl & Gr). pose proof (mod_axis lev dim Hd) as Hk.
    rewrite (box_lo bb dim), (box_hi bb dim) by done. cbn [bind]. rewrite filter_app.
    destruct (ltb _ mR) eqn:E1; [|destruct (ltb mL _) eqn:E2].
    + rewrite IHl by done. rewrite (filter_none _ n _ (elts r) HT), app_nil_r; [done|]. intros e He. split; [eapply good_range; [exact Gr|exact He]|].
      intros H. specialize (H _ Hk). specialize (HR e He). apply ltb_spec in E1. lra.
    + rewrite IHr by done. rewrite (filter_none _ n _ (elts l) HT); [done|]. intros e He. split; [eapply good_range; [exact Gl|exact He]|].
      intros H. specialize (H _ Hk). specialize (HL e He). apply ltb_spec in E2. lra.
    + rewrite IHl by done. cbn [bind]. rewrite IHr by done. cbn [bind]. by rewrite zlen_app.
Qed.

(** ** Boxes that contain a point *)
Definition is_point {A} (x : list A) (dim : Z) : Prop := dim <= zlen x.
Lemma pt_ok x dim k : is_point x dim -> 0 <= k < dim -> rd x k = Ok (at_ x dim 0 k).
Proof. unfold is_point, at_. intros H Hk. destruct (zlook_lt x k) as [y Hy]; [lia|]. rewrite (rd_ok _ _ _ Hy). replace (0 * dim + k) with k by lia. by rewrite Hy. Qed.
Lemma around_ok bbs dim n eps xx : boxes bbs dim n -> is_point xx dim -> tells (around bbs dim eps xx) n (fun e => contains bbs dim e eps xx).
Proof.
  intros HB Hb e He. unfold around.
  destruct (loop_axes dim (fun k b =>
    let* p := bmin bbs dim k e in let* q := bmax bbs dim k e in let* x := rd xx k in
    Ok (if ltb eps (p - x) || ltb (q - x) (- eps) then false else b))
    (fun k => negb (ltb eps (lower bbs dim e k - at_ xx dim 0 k) || ltb (upper bbs dim e k - at_ xx dim 0 k) (- eps)))) as (r & E & Hr).
  - destruct HB. lia.
  - intros k b Hk. rewrite (bmin_ok bbs dim n), (bmax_ok bbs dim n), (pt_ok xx dim) by done. cbn [bind]. f_equal. destruct (ltb _ _ || ltb _ _), b; done.
  - exists r. split; [done|]. rewrite Hr. unfold contains. split; intros H k Hk; specialize (H k Hk).
    + apply negb_true_iff, orb_false_iff in H as [H1 H2]. rewrite ltb_false in H1, H2. split; lra.
    + apply negb_true_iff, orb_false_iff. rewrite !ltb_false. destruct H. split; lra.
Qed.
Lemma getAround_ok bbs dim n eps xx t : boxes bbs dim n -> is_point xx dim -> good (lower bbs dim) (upper bbs dim) dim n (Qabs eps) t ->
  forall acc, getElementsAroundPoint bbs dim eps t xx acc = Ok (acc ++ List.filter (says (around bbs dim eps xx)) (elts t)).
Proof.
  intros HB Hb. pose proof (around_ok bbs dim n eps xx HB Hb) as HT. pose proof HB as (Hd & _). pose proof (abs_le eps) as Habs.
  induction t as [lev es|lev mL mR l IHl r IHr]; intros G acc.
  - cbn [getElementsAroundPoint elts]. by rewrite (leaf_ok _ n _ _ _ HT).
  - cbn [getElementsAroundPoint elts good] in *. destruct G as (Hlev & HL & HR & Gl & Gr). pose proof (mod_axis lev dim Hd) as Hk.
    rewrite (pt_ok xx dim) by done. cbn [bind]. rewrite filter_app.
    destruct (ltb _ mR) eqn:E1; [|destruct (ltb mL _) eqn:E2].
    + rewrite IHl by done. rewrite (filter_none _ n _ (elts r) HT), app_nil_r; [done|]. intros e He. split; [eapply good_range; [exact Gr|exact He]|].
      intros H. specialize (H _ Hk). specialize (HR e He). apply ltb_spec in E1. lra.
    + rewrite IHr by done. rewrite (filter_none _ n _ (elts l) HT); [done|]. intros e He. split; [eapply good_range; [exact Gl|exact He]|].
      intros H. specialize (H _ Hk). specialize (HL e He). apply ltb_spec in E2. lra.
    + rewrite IHl by done. cbn [bind]. rewrite IHr by done. by rewrite <- app_assoc.
Qed.

(** ** Points around a point *)
Lemma close_ok pts dim n eps xx : points pts dim n -> is_point xx dim -> tells (close pts dim eps xx) n (fun e => near pts dim e eps xx 0).
Proof.
  intros HB Hb e He. unfold close.
  destruct (loop_axes dim (fun k b => if b : bool then let* p := coord pts dim k e in let* x := rd xx k in Ok (Qle_bool (Qabs (p - x)) (Qabs eps)) else Ok false)
    (fun k => Qle_bool (Qabs (at_ pts dim e k - at_ xx dim 0 k)) (Qabs eps))) as (r & E & Hr).
  - destruct HB. lia.
  - intros k b Hk. rewrite (coord_ok pts dim n), (pt_ok xx dim) by done. cbn [bind]. by destruct b.
  - exists r. split; [done|]. rewrite Hr. unfold near. split; intros H k Hk; specialize (H k Hk); by apply Qle_bool_iff.
Qed.
Lemma getPts_ok pts dim n eps xx t : points pts dim n -> is_point xx dim -> good (at_ pts dim) (at_ pts dim) dim n (Qabs eps) t ->
  forall acc, getPointsAround pts dim eps t xx acc = Ok (acc ++ List.filter (says (close pts dim eps xx)) (elts t)).
Proof.
  intros HB Hb. pose proof (close_ok pts dim n eps xx HB Hb) as HT. pose proof HB as (Hd & _). pose proof (abs_le eps) as Habs.
  induction t as [lev es|lev mL mR l IHl r IHr]; intros G acc.
  - cbn [getPointsAround elts]. by rewrite (leaf_ok _ n _ _ _ HT).
  - cbn [getPointsAround elts good] in *. destruct G as (Hlev & HL & HR & Gl & Gr). pose proof (mod_axis lev dim Hd) as Hk.
    rewrite (pt_ok xx dim) by done. cbn [bind]. rewrite filter_app.
    destruct (ltb _ mR) eqn:E1; [|destruct (ltb mL _) eqn:E2].
    + rewrite IHl by done. rewrite (filter_none _ n _ (elts r) HT), app_nil_r; [done|]. intros e He. split; [eapply good_range; [exact Gr|exact He]|].
      intros H. specialize (H _ Hk). apply Qabs_Qle_condition in H. specialize (HR e He). apply ltb_spec in E1. lra.
    + rewrite IHr by done. rewrite (filter_none _ n _ (elts l) HT); [done|]. intros e He. split; [eapply good_range; [exact Gl|exact He]|].
      intros H. specialize (H _ Hk). apply Qabs_Qle_condition in H. specialize (HL e He). apply ltb_spec in E2. lra.
    + rewrite IHl by done. cbn [bind]. rewrite IHr by done. by rewrite <- app_assoc.
Qed.

(** ** Equal tuples *)
Lemma zpt_ok x dim k : is_point x dim -> 0 <= k < dim -> rd x k = Ok (zat x dim 0 k).
Proof. unfold is_point, zat. intros H Hk. destruct (zlook_lt x k) as [y Hy]; [lia|]. rewrite (rd_ok _ _ _ Hy). replace (0 * dim + k) with k by lia. by rewrite Hy. Qed.
Lemma zat_rd v dim n e k : points v dim n -> 0 <= e < n -> 0 <= k < dim -> rd v (e * dim + k) = Ok (zat v dim e k).
Proof. intros (Hd & Hn & Hl) He Hk. unfold zat. destruct (zlook_lt v (e * dim + k)) as [x Hx]; [split; nia|]. by rewrite (rd_ok _ _ _ Hx), Hx. Qed.
Lemma same_ok v dim n xx : points v dim n -> is_point xx dim -> tells (same v dim xx) n (fun e => forall k, 0 <= k < dim -> zat v dim e k = zat xx dim 0 k).
Proof.
  intros HB Hb e He. unfold same.
  destruct (loop_axes dim (fun k b => let* p := rd v (e * dim + k) in let* w := rd xx k in Ok (if negb (p =? w) then false else b))
    (fun k => zat v dim e k =? zat xx dim 0 k)) as (r & E & Hr).
  - destruct HB. lia.
  - intros k b Hk. rewrite (zat_rd v dim n), (zpt_ok xx dim) by done. cbn [bind]. f_equal. destruct (_ =? _), b; done.
  - exists r. split; [done|]. rewrite Hr. split; intros H k Hk; specialize (H k Hk); lia.
Qed.
Lemma getEqual_ok v dim n xx t : points v dim n -> is_point xx dim -> good (fun e k => inject_Z (zat v dim e k)) (fun e k => inject_Z (zat v dim e k)) dim n 0 t ->
  forall acc, getEqualElems v dim t xx acc = Ok (acc ++ List.filter (says (same v dim xx)) (elts t)).
Proof.
  intros HB Hb. pose proof (same_ok v dim n xx HB Hb) as HT. pose proof HB as (Hd & _).
  induction t as [lev es|lev mL mR l IHl r IHr]; intros G acc.
  - cbn [getEqualElems elts]. by rewrite (leaf_ok _ n _ _ _ HT).
  - cbn [getEqualElems elts good] in *. destruct G as (Hlev & HL & HR & Gl & Gr). pose proof (mod_axis lev dim Hd) as Hk.
    rewrite (zpt_ok xx dim) by done. cbn [bind]. rewrite filter_app.
    destruct (ltb _ mR) eqn:E1; [|destruct (ltb mL _) eqn:E2].
    + rewrite IHl by done. rewrite (filter_none _ n _ (elts r) HT), app_nil_r; [done|]. intros e He. split; [eapply good_range; [exact Gr|exact He]|].
      intros H. specialize (H _ Hk). specialize (HR e He). rewrite H in HR. apply ltb_spec in E1. lra.
    + rewrite IHr by done. rewrite (filter_none _ n _ (elts l) HT); [done|]. intros e He. split; [eapply good_range; [exact Gl|exact He]|].
      intros H. specialize (H _ Hk). specialize (HL e He). rewrite H in HL. apply ltb_spec in E2. lra.
    + rewrite IHl by done. cbn [bind]. rewrite IHr by done. by rewrite <- app_assoc.
Qed.

(** ** The terminals *)
Lemma walk_app t c : walk t c = c ++ walk t [].
Proof. revert c. induction t as [lev es|lev mL mR l IHl r IHr]; intros c; cbn; [destruct es; [by rewrite app_nil_r|done]|]. rewrite (IHr (walk l c)), (IHl c), (IHr (walk l [])). by rewrite <- app_assoc. Qed.
Lemma walk_ok t : flat_map contents (walk t []) = elts t /\ Forall (fun x => contents x <> []) (walk t []).
Proof.
  induction t as [lev es|lev mL mR l IHl r IHr]; cbn.
  - destruct es; cbn; [done|]. rewrite app_nil_r. split; [done|]. repeat constructor. done.
  - rewrite (walk_app r). destruct IHl as [L1 L2], IHr as [R1 R2]. rewrite flat_map_app, L1, R1. split; [done|]. by apply Forall_app.
Qed.
Fixpoint weight (t : tree) : nat := match t with Leaf _ _ => 1 | Node _ _ _ l r => Datatypes.S (weight l + weight r) end.
Fixpoint wsum (l : list tree) : nat := match l with [] => 0 | t :: l => weight t + wsum l end.
Lemma iterate_ok stack : forall fuel met, (wsum stack <= fuel)%nat -> iterate fuel stack met = Ok (met ++ flat_map terminals stack).
Proof.
  intros fuel. revert stack. induction fuel as [|f IH]; intros [|node stack] met H; cbn in *.
  - by rewrite app_nil_r.
  - destruct node; cbn in H; lia.
  - by rewrite app_nil_r.
  - destruct node as [lev es|lev mL mR l r]; cbn in H.
    + rewrite IH by lia. by rewrite <- app_assoc.
    + rewrite IH by (cbn; lia). cbn. by rewrite <- app_assoc.
Qed.
Lemma terminals_ok t : flat_map contents (terminals t) = elts t.
Proof. induction t as [lev es|lev mL mR l IHl r IHr]; cbn; [by rewrite app_nil_r|]. by rewrite flat_map_app, IHl, IHr. Qed.
Lemma size_ok t : size t = zlen (elts t).
Proof. induction t as [lev es|lev mL mR l IHl r IHr]; cbn; [done|]. rewrite zlen_app. lia. Qed.
