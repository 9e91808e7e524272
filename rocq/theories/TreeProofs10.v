From Coq Require Import QArith Qabs Lqa ZifyBool ZifyNat.
From Verif Require Import Base DataArray ArrLib TreeModel TreeModel2 TreeSpec TreeProofs TreeProofs2 TreeProofs4 TreeProofs9.
Local Open Scope Z_scope.

(** * Extrema of the components *)
Lemma zset_look {A} (l : list A) i x k : 0 <= i < zlen l -> (zset l i x) @ k = if decide (k = i) then Some x else l @ k.
Proof. intros H. rewrite zlook_zset by done. destruct (Z.eqb_spec k i); [by rewrite decide_True by done|by rewrite decide_False by done]. Qed.
Lemma zset_id {A} (l : list A) i x : 0 <= i < zlen l -> l @ i = Some x -> zset l i x = l.
Proof. intros Hi E. unfold zset. apply list_insert_id. by rewrite <- zlook_to_nat by lia. Qed.
Section MinMax.
Context (v : list Q) (dim : Z).
Local Notation at_ := (at_ v dim).
Definition extrema (k m : Z) (mn mx : Q) : Prop :=
  (forall i, 0 <= i < m -> (mn <= at_ i k <= mx)%Q) /\ (mn = DBL_MAX \/ exists i, 0 <= i < m /\ mn = at_ i k) /\ (mx = (- DBL_MAX)%Q \/ exists i, 0 <= i < m /\ mx = at_ i k).
Definition cells (b : list (option Q)) (k m : Z) : Prop := exists mn mx, b @ (k * 2) = Some (Some mn) /\ b @ (k * 2 + 1) = Some (Some mx) /\ extrema k m mn mx.
Lemma cells_frame b k m p x : p <> k * 2 -> p <> k * 2 + 1 -> 0 <= p < zlen b -> cells b k m -> cells (zset b p x) k m.
Proof. intros H1 H2 Hp (mn & mx & E1 & E2 & H). exists mn, mx. rewrite !zset_look by lia. rewrite !decide_False by lia. done. Qed.
End MinMax.
Lemma min_step (a : Z -> Q) m mn : (forall i, 0 <= i < m -> (mn <= a i)%Q) -> (mn = DBL_MAX \/ exists i, 0 <= i < m /\ mn = a i) ->
  let mn' := if ltb (a m) mn then a m else mn in 0 <= m -> (forall i, 0 <= i < m + 1 -> (mn' <= a i)%Q) /\ (mn' = DBL_MAX \/ exists i, 0 <= i < m + 1 /\ mn' = a i).
Proof.
  intros H1 H2 mn' Hm. unfold mn'. destruct (ltb (a m) mn) eqn:E; [apply ltb_spec in E|apply ltb_false in E]; split.
  - intros i Hi. destruct (decide (i = m)) as [->|]; [lra|]. specialize (H1 i ltac:(lia)). lra.
  - right. exists m. split; [lia|done].
  - intros i Hi. destruct (decide (i = m)) as [->|]; [lra|]. apply H1. lia.
  - destruct H2 as [H2|(i & Hi & H2)]; [by left|right]. exists i. split; [lia|done].
Qed.
Lemma max_step (a : Z -> Q) m mx : (forall i, 0 <= i < m -> (a i <= mx)%Q) -> (mx = (- DBL_MAX)%Q \/ exists i, 0 <= i < m /\ mx = a i) ->
  let mx' := if ltb mx (a m) then a m else mx in 0 <= m -> (forall i, 0 <= i < m + 1 -> (a i <= mx')%Q) /\ (mx' = (- DBL_MAX)%Q \/ exists i, 0 <= i < m + 1 /\ mx' = a i).
Proof.
  intros H1 H2 mx' Hm. unfold mx'. destruct (ltb mx (a m)) eqn:E; [apply ltb_spec in E|apply ltb_false in E]; split.
  - intros i Hi. destruct (decide (i = m)) as [->|]; [lra|]. specialize (H1 i ltac:(lia)). lra.
  - right. exists m. split; [lia|done].
  - intros i Hi. destruct (decide (i = m)) as [->|]; [lra|]. apply H1. lia.
  - destruct H2 as [H2|(i & Hi & H2)]; [by left|right]. exists i. split; [lia|done].
Qed.
Lemma minmax_ok d bounds : da_alloc d = true -> da_wf d -> 1 <= da_nc d -> 2 * da_nc d <= zlen bounds ->
  exists b, getMinMaxPerComponent d bounds = Ok b /\ zlen b = zlen bounds /\ (forall p, 2 * da_nc d <= p -> b @ p = bounds @ p) /\ forall k, 0 <= k < da_nc d -> cells (da_vals d) (da_nc d) b k (da_nt d).
Proof.
  intros Ha W H1 Hb. pose proof (wf_points d W H1) as HP. unfold getMinMaxPerComponent, checkAllocated. rewrite Ha. set (dim := da_nc d) in *. set (v := da_vals d) in *. set (n := da_nt d) in *.
  set (first := forZ 0 dim _ bounds).
  assert (W1 : wp first (fun b => zlen b = zlen bounds /\ (forall p, 2 * dim <= p -> b @ p = bounds @ p) /\ forall k, 0 <= k < dim -> cells v dim b k 0) False).
  { unfold first. apply (wp_forZ (fun j b => zlen b = zlen bounds /\ (forall p, 2 * dim <= p -> b @ p = bounds @ p) /\ forall k, 0 <= k < j -> cells v dim b k 0)); [lia|split; [done|split; [done|lia]]| |done].
    intros j b Hj (Hl & Hp & Hc). unfold wrc. rewrite (wr_ok b) by lia. cbn [bind]. rewrite wr_ok by (rewrite zlen_zset; lia). cbn [wp]. rewrite !zlen_zset. split; [done|]. split.
    - intros p Hp'. rewrite !zset_look by (rewrite ?zlen_zset; lia). rewrite !decide_False by lia. by apply Hp.
    - intros k Hk. destruct (decide (k = j)) as [->|].
      + exists DBL_MAX, (- DBL_MAX)%Q. rewrite !zset_look by (rewrite ?zlen_zset; lia). rewrite (decide_False (P := j * 2 = j * 2 + 1)) by lia. rewrite !decide_True by lia. split; [done|]. split; [done|]. split; [lia|]. split; by left.
      + apply cells_frame; [lia|lia|rewrite zlen_zset; lia|]. apply cells_frame; [lia|lia|lia|]. apply Hc. lia. }
  destruct first as [b0| | |]; cbn in W1; try done. cbn [bind]. destruct W1 as (L0 & P0 & C0). pose proof HP as (_ & Hn & _).
  match goal with |- exists b, ?X = Ok b /\ _ => assert (W2 : wp X (fun b => zlen b = zlen bounds /\ (forall p, 2 * dim <= p -> b @ p = bounds @ p) /\ forall k, 0 <= k < dim -> cells v dim b k n) False) end.
  { apply (wp_forZ (fun i b => zlen b = zlen bounds /\ (forall p, 2 * dim <= p -> b @ p = bounds @ p) /\ forall k, 0 <= k < dim -> cells v dim b k i)); [done|done| |done].
    intros i b Hi (Hl & Hp & Hc).
    apply (wp_forZ (fun j b => zlen b = zlen bounds /\ (forall p, 2 * dim <= p -> b @ p = bounds @ p) /\ (forall k, 0 <= k < j -> cells v dim b k (i + 1)) /\ forall k, j <= k < dim -> cells v dim b k i)); [lia| | |].
    - split; [done|]. split; [done|]. split; [lia|]. intros; apply Hc; lia.
    - clear b Hl Hp Hc. intros j b Hj (Hl & Hp & Hc1 & Hc2). pose proof (coord_ok v dim n i j HP ltac:(lia) ltac:(lia)) as Ec. unfold coord in Ec. rewrite Ec. cbn [bind].
      destruct (Hc2 j ltac:(lia)) as (mn & mx & E1 & E2 & X1 & X2 & X3). rewrite (rdc_ok _ _ _ E1). cbn [bind].
      destruct (min_step (fun i => at_ v dim i j) i mn (fun i0 H => proj1 (X1 i0 H)) X2 ltac:(lia)) as [Y1 Y2]. destruct (max_step (fun i => at_ v dim i j) i mx (fun i0 H => proj2 (X1 i0 H)) X3 ltac:(lia)) as [Y3 Y4]. cbv beta in *.
      set (x := at_ v dim i j) in *.
      assert (EA : (if ltb x mn then wrc b (j * 2) x else Ok b) = Ok (zset b (j * 2) (Some (if ltb x mn then x else mn)))).
      { destruct (ltb x mn); [unfold wrc; by rewrite wr_ok by lia|]. by rewrite zset_id by (done || lia). }
      rewrite EA. cbn [bind]. set (b1 := zset b _ _). assert (L1 : zlen b1 = zlen b) by (unfold b1; by rewrite zlen_zset).
      assert (E2' : b1 @ (j * 2 + 1) = Some (Some mx)) by (unfold b1; rewrite zset_look by lia; by rewrite decide_False by lia). rewrite (rdc_ok _ _ _ E2'). cbn [bind].
      assert (EB : (if ltb mx x then wrc b1 (j * 2 + 1) x else Ok b1) = Ok (zset b1 (j * 2 + 1) (Some (if ltb mx x then x else mx)))).
      { destruct (ltb mx x); [unfold wrc; by rewrite wr_ok by lia|]. by rewrite zset_id by (done || lia). }
      rewrite EB. cbn [wp]. rewrite zlen_zset. split; [lia|]. split; [|split].
      + intros p Hp'. rewrite zset_look by lia. rewrite decide_False by lia. unfold b1. rewrite zset_look by lia. rewrite decide_False by lia. by apply Hp.
      + intros k Hk. destruct (decide (k = j)) as [->|].
        * exists (if ltb x mn then x else mn), (if ltb mx x then x else mx). rewrite !zset_look by lia. rewrite (decide_False (P := j * 2 = j * 2 + 1)), (decide_True (P := j * 2 + 1 = j * 2 + 1)) by lia.
          unfold b1. rewrite zset_look by lia. rewrite decide_True by lia. split; [done|]. split; [done|]. split; [|done]. intros i0 Hi0. split; [by apply Y1|by apply Y3].
        * apply cells_frame; [lia|lia|lia|]. apply cells_frame; [lia|lia|lia|]. apply Hc1. lia.
      + intros k Hk. apply cells_frame; [lia|lia|lia|]. apply cells_frame; [lia|lia|lia|]. apply Hc2. lia.
    - intros b' (? & ? & ? & ?). done. }
  destruct (forZ _ _ _ _) as [b| | |]; cbn in W2; try done. exists b. done.
Qed.

(** * The closest tuples *)
Lemma foldl_same {A} (f g : A -> Z -> A) l s : (forall k s, k ∈ l -> f s k = g s k) -> foldl f s l = foldl g s l.
Proof. revert s. induction l as [|x l IH]; intros s H; [done|]. cbn. rewrite H by (by left). apply IH. intros. apply H. by right. Qed.
Lemma sqdist_drop pts dim e v i : 0 <= i -> 1 <= dim -> sqdist pts dim e (drop (Z.to_nat (i * dim)) v) 0 = sqdist pts dim e v i.
Proof. intros Hi Hd. unfold sqdist. apply foldl_same. intros k s Hk%elem_of_seqZ. by rewrite at_drop by lia. Qed.
Lemma forZ_snoc {A} m (body : Z -> A -> res A) s : 0 <= m -> forZ 0 (m + 1) body s = let* s := forZ 0 m body s in body m s.
Proof.
  intros Hm. unfold forZ. rewrite !Z.sub_0_r. rewrite seqZ_app by lia. rewrite foldM_app. destruct (foldM _ _ _) as [a| | |]; try done. cbn [bind]. rewrite seqZ_cons by lia. cbn [foldM]. rewrite Z.add_0_l.
  destruct (body m a); cbn [bind]; try done.
Qed.
Section Find.
Context (root : Q -> Q) (pts : list Q) (dim n : Z) (other : list Q) (m : Z).
Hypothesis Hroot : is_root root.
Hypothesis HP : points pts dim n.
Hypothesis HO : points other dim m.
Hypothesis Hn : 1 <= n.
Hypothesis Hbig : forall e j, 0 <= e < n -> 0 <= j < m -> (sqdist pts dim e other j < DBL_MAX)%Q.
Lemma alg_ok t s dist : (0 <= s)%Q -> good (at_ pts dim) (at_ pts dim) dim n s t -> elts t ≡ₚ seqZ 0 n -> exists F r, zlen r = m /\
  (forall j, 0 <= j < m -> exists e, r @ j = Some e /\ 0 <= e < n /\ forall e', 0 <= e' < n -> (sqdist pts dim e other j <= sqdist pts dim e' other j)%Q) /\
  forall fuel, (F <= fuel)%nat -> FindClosestTupleIdAlg fuel root pts dim t dist other m = Ok r.
Proof.
  intros Hs HG He. unfold FindClosestTupleIdAlg. pose proof HP as (Hd & _).
  assert (G : forall i, 0 <= i -> i <= m -> exists F d r, (0 < d)%Q /\ zlen r = i /\
    (forall j, 0 <= j < i -> exists e, r @ j = Some e /\ 0 <= e < n /\ forall e', 0 <= e' < n -> (sqdist pts dim e other j <= sqdist pts dim e' other j)%Q) /\
    forall fuel, (F <= fuel)%nat -> forZ 0 i (fun i '(distOpt, r) => let* (distOpt, elem) := seek fuel root pts dim t (drop (Z.to_nat (i * dim)) other) distOpt in
      match elem with Some e => Ok (distOpt, r ++ [e]) | None => UB end) (qmax dist DBL_EPSILON, []) = Ok (d, r)).
  { intros i Hi. pattern i. revert i Hi. apply natlike_ind.
    - intros _. exists 0%nat, (qmax dist DBL_EPSILON), []. split; [|split; [done|split; [lia|]]].
      + unfold qmax. destruct (ltb dist DBL_EPSILON) eqn:E; [reflexivity|]. apply ltb_false in E. eapply Qlt_le_trans; [|exact E]. reflexivity.
      + intros fuel _. by rewrite forZ_empty.
    - intros i Hi IH Hm. destruct IH as (F & d & r & Hd0 & Hl & Hr & E); [lia|]. unfold Z.succ in *.
      destruct (seek_found root pts dim n (drop (Z.to_nat (i * dim)) other) Hroot HP (drop_pt _ _ _ i HO ltac:(lia)) t s Hs HG He Hn) with (d := d) as (F' & d' & e & Hd' & [Hc1 Hc2] & E'); [|done|].
      { intros e He'. rewrite sqdist_drop by lia. apply Hbig; lia. }
      exists (Nat.max F (Datatypes.S F')), d', (r ++ [e]). split; [done|]. rewrite zlen_app, zlen_cons, zlen_nil. split; [lia|]. split.
      + intros j Hj. destruct (decide (j = i)) as [->|].
        * exists e. split; [rewrite <- Hl; apply zlook_snoc|]. split; [done|]. intros e' He'. specialize (Hc2 e' He'). rewrite !sqdist_drop in Hc2 by lia. exact Hc2.
        * destruct (Hr j ltac:(lia)) as (e0 & E0 & H0). exists e0. rewrite zlook_app_l by lia. done.
      + intros fuel Hf. rewrite forZ_snoc by lia. rewrite E by lia. cbn [bind]. rewrite E' by lia. done. }
  destruct (G m ltac:(apply HO) ltac:(lia)) as (F & d & r & _ & Hl & Hr & E). exists F, r. split; [done|]. split; [done|]. intros fuel Hf. by rewrite E.
Qed.
End Find.
Lemma delta_ok v dim n b k : cells v dim b k n -> exists x, (let* q := rdc b (2 * k + 1) in let* p := rdc b (2 * k) in Ok (Qabs (q - p))) = Ok x.
Proof. intros (mn & mx & E1 & E2 & _). replace (2 * k) with (k * 2) by lia. rewrite (rdc_ok _ _ _ E1), (rdc_ok _ _ _ E2). eexists. done. Qed.
Section Arrays.
Context (root cbrt : Q -> Q) (this other : da Q).
Hypothesis Hroot : is_root root.
Hypothesis (Ha : da_alloc this = true) (Hb : da_alloc other = true) (Wt : da_wf this) (Wo : da_wf other) (Hc : da_nc this = da_nc other) (H3 : 1 <= da_nc this <= 3).
(** Up to the search itself. *)
Lemma closest_tree : exists t s dist, (0 <= s)%Q /\ good (at_ (da_vals this) (da_nc this)) (at_ (da_vals this) (da_nc this)) (da_nc this) (da_nt this) s t /\ elts t ≡ₚ seqZ 0 (da_nt this) /\
  forall fuel, findClosestTupleId fuel root cbrt this other = FindClosestTupleIdAlg fuel root (da_vals this) (da_nc this) t dist (da_vals other) (da_nt other).
Proof.
  clear Hroot. pose proof (wf_points this Wt ltac:(lia)) as HP.
  destruct (minmax_ok this (malloc Q 6)) as (b & Eb & Lb & _ & Cb); [done|done|lia|rewrite zlen_malloc; lia|].
  unfold findClosestTupleId, checkAllocated. rewrite Ha, Hb. rewrite <- Hc, Z.eqb_refl. cbn [negb ifthrow]. rewrite Eb. cbn [bind].
  assert (EC : exists cs, (if da_nc this =? 3 then let* x := (let* q := rdc b (2 * 0 + 1) in let* p := rdc b (2 * 0) in Ok (Qabs (q - p))) in let* y := (let* q := rdc b (2 * 1 + 1) in let* p := rdc b (2 * 1) in Ok (Qabs (q - p))) in
      let* z := (let* q := rdc b (2 * 2 + 1) in let* p := rdc b (2 * 2) in Ok (Qabs (q - p))) in let d := qmax (qmax x y) z in Ok (cbrt ((d * d * d) / inject_Z (da_nt this))%Q)
    else if da_nc this =? 2 then let* x := (let* q := rdc b (2 * 0 + 1) in let* p := rdc b (2 * 0) in Ok (Qabs (q - p))) in let* y := (let* q := rdc b (2 * 1 + 1) in let* p := rdc b (2 * 1) in Ok (Qabs (q - p))) in Ok (root (qmax x y / inject_Z (da_nt this))%Q)
    else if da_nc this =? 1 then let* x := (let* q := rdc b (2 * 0 + 1) in let* p := rdc b (2 * 0) in Ok (Qabs (q - p))) in Ok (x / inject_Z (da_nt this))%Q
    else Throw) = Ok cs).
  { destruct (da_nc this =? 3) eqn:E3; [|destruct (da_nc this =? 2) eqn:E2; [|destruct (da_nc this =? 1) eqn:E1; [|lia]]].
    - destruct (delta_ok _ _ _ b 0 (Cb 0 ltac:(lia))) as [x ->], (delta_ok _ _ _ b 1 (Cb 1 ltac:(lia))) as [y ->], (delta_ok _ _ _ b 2 (Cb 2 ltac:(lia))) as [z ->]. cbn [bind]. eexists. done.
    - destruct (delta_ok _ _ _ b 0 (Cb 0 ltac:(lia))) as [x ->], (delta_ok _ _ _ b 1 (Cb 1 ltac:(lia))) as [y ->]. cbn [bind]. eexists. done.
    - destruct (delta_ok _ _ _ b 0 (Cb 0 ltac:(lia))) as [x ->]. cbn [bind]. eexists. done. }
  destruct EC as [cs EC]. destruct (BBTreePts_ok _ _ _ (cs * (1 # 1000000000000))%Q HP) as (t & Et & Pt & Gt).
  exists t, (Qabs (cs * (1 # 1000000000000))), (inject_Z (da_nc this) * cs * cs)%Q. split; [apply Qabs_nonneg|]. split; [done|]. split; [done|]. intros fuel. cbv zeta in EC |- *. rewrite EC. cbn [bind]. rewrite Et. done.
Qed.
Hypothesis Hbig : forall e j, 0 <= e < da_nt this -> 0 <= j < da_nt other -> (sqdist (da_vals this) (da_nc this) e (da_vals other) j < DBL_MAX)%Q.
Hypothesis Hn : 1 <= da_nt this.
Lemma closestTuple_ok : exists F r, zlen r = da_nt other /\
  (forall j, 0 <= j < da_nt other -> exists e, r @ j = Some e /\ 0 <= e < da_nt this /\ forall e', 0 <= e' < da_nt this -> (sqdist (da_vals this) (da_nc this) e (da_vals other) j <= sqdist (da_vals this) (da_nc this) e' (da_vals other) j)%Q) /\
  forall fuel, (F <= fuel)%nat -> findClosestTupleId fuel root cbrt this other = Ok r.
Proof.
  destruct closest_tree as (t & s & dist & Hs & Gt & Pt & E). pose proof (wf_points this Wt ltac:(lia)) as HP. pose proof (wf_points other Wo ltac:(lia)) as HO. rewrite <- Hc in HO.
  destruct (alg_ok root _ _ _ _ _ Hroot HP HO Hn Hbig t s dist Hs Gt Pt) as (F & r & Hl & Hr & E'). exists F, r. split; [done|]. split; [done|]. intros fuel Hf. rewrite E. by apply E'.
Qed.
Lemma foldl_Qeq (f g : Z -> Q) l s s' : (s == s')%Q -> (forall k, f k == g k)%Q -> (foldl (fun s k => s + f k) s l == foldl (fun s k => s + g k) s' l)%Q.
Proof. clear. intros Hs Hf. revert s s' Hs. induction l as [|x l IH]; intros s s' Hs; [done|]. cbn. apply IH. rewrite Hs, (Hf x). reflexivity. Qed.
Definition swapped (e i : Z) : Q := foldl (fun s k => s + (at_ (da_vals other) (da_nc this) i k - at_ (da_vals this) (da_nc this) e k) * (at_ (da_vals other) (da_nc this) i k - at_ (da_vals this) (da_nc this) e k))%Q 0%Q (seqZ 0 (da_nc this)).
Lemma swapped_eq e i : (swapped e i == sqdist (da_vals this) (da_nc this) e (da_vals other) i)%Q.
Proof.
  unfold swapped, sqdist. apply (foldl_Qeq (fun k => (at_ (da_vals other) (da_nc this) i k - at_ (da_vals this) (da_nc this) e k) * (at_ (da_vals other) (da_nc this) i k - at_ (da_vals this) (da_nc this) e k))%Q
    (fun k => (at_ (da_vals this) (da_nc this) e k - at_ (da_vals other) (da_nc this) i k) * (at_ (da_vals this) (da_nc this) e k - at_ (da_vals other) (da_nc this) i k))%Q); [reflexivity|]. intros k. ring.
Qed.
Lemma minimal_ok : exists F res, (forall fuel, (F <= fuel)%nat -> minimalDistanceTo fuel root cbrt this other = Ok res) /\
  (da_nt other = 0 -> res = (root DBL_MAX, None)) /\
  (1 <= da_nt other -> exists e i d, res = (root d, Some (e, i)) /\ 0 <= e < da_nt this /\ 0 <= i < da_nt other /\ (d == sqdist (da_vals this) (da_nc this) e (da_vals other) i)%Q /\
    forall e' i', 0 <= e' < da_nt this -> 0 <= i' < da_nt other -> (d <= sqdist (da_vals this) (da_nc this) e' (da_vals other) i')%Q).
Proof.
  destruct closestTuple_ok as (F & r & Hl & Hr & E). pose proof (wf_points this Wt ltac:(lia)) as HP. pose proof (wf_points other Wo ltac:(lia)) as HO. rewrite <- Hc in HO. pose proof HO as (_ & Hm & _).
  set (sq := fun e i => sqdist (da_vals this) (da_nc this) e (da_vals other) i) in *.
  match goal with |- context[minimalDistanceTo] => idtac end.
  set (body := fun (i : Z) '((ret, ids) : Q * option (Z * Z)) =>
    let* e := rd r i in
    let* tmp := forZ 0 (da_nc this) (fun j tmp => let* o := rd (da_vals other) (i * da_nc this + j) in let* p := rd (da_vals this) (da_nc this * e + j) in Ok (tmp + (o - p) * (o - p))%Q) 0%Q in
    Ok (if ltb tmp ret then (tmp, Some (e, i)) else (ret, ids))).
  assert (W : wp (forZ 0 (da_nt other) body (DBL_MAX, None)) (fun res => (da_nt other = 0 -> res = (DBL_MAX, None)) /\ (1 <= da_nt other -> exists e i d, res = (d, Some (e, i)) /\ 0 <= e < da_nt this /\ 0 <= i < da_nt other /\ (d == sq e i)%Q /\
    forall e' i', 0 <= e' < da_nt this -> 0 <= i' < da_nt other -> (d <= sq e' i')%Q)) False).
  { apply (wp_forZ (fun j res => (j = 0 -> res = (DBL_MAX, None)) /\ (1 <= j -> exists e i d, res = (d, Some (e, i)) /\ 0 <= e < da_nt this /\ 0 <= i < j /\ (d == sq e i)%Q /\
      forall e' i', 0 <= e' < da_nt this -> 0 <= i' < j -> (d <= sq e' i')%Q))); [done|split; [done|lia]| |done].
    intros j [ret ids] Hj [I0 I1]. destruct (Hr j Hj) as (e & Ee & He & Hmin). unfold body. rewrite (rd_ok _ _ _ Ee). cbn [bind].
    assert (Ef : forZ 0 (da_nc this) (fun j0 tmp => let* o := rd (da_vals other) (j * da_nc this + j0) in let* p := rd (da_vals this) (da_nc this * e + j0) in Ok (tmp + (o - p) * (o - p))%Q) 0%Q = Ok (swapped e j)).
    { unfold forZ, swapped. rewrite Z.sub_0_r. apply foldM_foldl. intros k s Hk%elem_of_seqZ. pose proof (coord_ok _ _ _ j k HO ltac:(lia) ltac:(lia)) as C1. pose proof (coord_ok _ _ _ e k HP ltac:(lia) ltac:(lia)) as C2. unfold coord in C1, C2.
      rewrite C1. cbn [bind]. rewrite (Z.mul_comm (da_nc this) e), C2. done. }
    rewrite Ef. cbn [bind wp]. split; [lia|]. intros _. pose proof (swapped_eq e j) as Es. pose proof (Hbig e j He Hj) as Hb'. unfold sq in *. destruct (decide (j = 0)) as [->|].
    - rewrite (I0 eq_refl) in *. specialize (I0 eq_refl). injection I0 as -> ->. replace (ltb (swapped e 0) DBL_MAX) with true by (symmetry; apply ltb_spec; rewrite Es; done).
      exists e, 0, (swapped e 0). split; [done|]. split; [done|]. split; [lia|]. split; [done|]. intros e' i' He' Hi'. replace i' with 0 by lia. rewrite Es. by apply Hmin.
    - destruct (I1 ltac:(lia)) as (e0 & i0 & d0 & [= -> ->] & He0 & Hi0 & D0 & D1). destruct (ltb (swapped e j) d0) eqn:El; [apply ltb_spec in El|apply ltb_false in El].
      + exists e, j, (swapped e j). split; [done|]. split; [done|]. split; [lia|]. split; [done|]. intros e' i' He' Hi'. destruct (decide (i' = j)) as [->|]; [rewrite Es; by apply Hmin|]. specialize (D1 e' i' He' ltac:(lia)). lra.
      + exists e0, i0, d0. split; [done|]. split; [done|]. split; [lia|]. split; [done|]. intros e' i' He' Hi'. destruct (decide (i' = j)) as [->|]; [|apply D1; [done|lia]]. specialize (Hmin e' He'). lra. }
  assert (EM : forall fuel, (F <= fuel)%nat -> minimalDistanceTo fuel root cbrt this other = let* (ret, ids) := forZ 0 (da_nt other) body (DBL_MAX, None) in Ok (root ret, ids)).
  { intros fuel Hf. unfold minimalDistanceTo. rewrite E by done. done. }
  destruct (forZ _ _ _ _) as [[ret ids]| | |]; cbn [wp] in W; try done. destruct W as [W0 W1]. exists F, (root ret, ids). split; [exact EM|]. split.
  - intros H0. specialize (W0 H0). by injection W0 as -> ->.
  - intros H1. destruct (W1 H1) as (e & i & d & [= -> ->] & H). exists e, i, d. done.
Qed.
End Arrays.
