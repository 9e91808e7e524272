From Coq Require Import QArith Qabs Lqa ZifyBool ZifyNat.
From Verif Require Import Base DataArray ArrLib TreeModel TreeModel2 TreeSpec TreeProofs TreeProofs2 TreeProofs4.
Local Open Scope Z_scope.

(** * The closest point *)
Lemma foldM_foldl {A S} (g : S -> A -> res S) (f : S -> A -> S) (l : list A) (s : S) : (forall x s, x ∈ l -> g s x = Ok (f s x)) -> foldM g l s = Ok (foldl f s l).
Proof. revert s. induction l as [|x l IH]; intros s H; [done|]. cbn. rewrite H by (by left). cbn. apply IH. intros y s' Hy. apply H. by right. Qed.
Lemma dist2_ok pts dim n xx e : points pts dim n -> is_point xx dim -> 0 <= e < n -> dist2 pts dim xx e = Ok (sqdist pts dim e xx 0).
Proof.
  intros HP Hx He. unfold dist2, sqdist, forZ. rewrite Z.sub_0_r. apply foldM_foldl. intros k s Hk%elem_of_seqZ.
  rewrite (coord_ok pts dim n), (pt_ok xx dim) by (done || lia). done.
Qed.
Lemma sq_nonneg (x : Q) : (0 <= x * x)%Q.
Proof. destruct (Qlt_le_dec x 0) as [H|H]; [setoid_replace (x * x)%Q with ((- x) * (- x))%Q by ring|]; apply Qmult_le_0_compat; lra. Qed.
Lemma sum_ge (f : Z -> Q) l s : (forall k, 0 <= f k)%Q -> (s <= foldl (fun s k => s + f k)%Q s l)%Q /\ forall k, k ∈ l -> (s + f k <= foldl (fun s k => s + f k)%Q s l)%Q.
Proof.
  intros Hf. revert s. induction l as [|x l IH]; intros s; cbn; [split; [lra|set_solver]|]. destruct (IH (s + f x)%Q) as [H1 H2]. pose proof (Hf x). split; [lra|].
  intros k [->|Hk]%elem_of_cons; [done|]. specialize (H2 k Hk). lra.
Qed.
Lemma sqdist_ge pts dim e pts' e' k : 0 <= k < dim -> ((at_ pts dim e k - at_ pts' dim e' k) * (at_ pts dim e k - at_ pts' dim e' k) <= sqdist pts dim e pts' e')%Q.
Proof.
  intros Hk. unfold sqdist. destruct (sum_ge (fun k => (at_ pts dim e k - at_ pts' dim e' k) * (at_ pts dim e k - at_ pts' dim e' k))%Q (seqZ 0 dim) 0) as [_ H]; [intros; apply sq_nonneg|].
  specialize (H k). rewrite elem_of_seqZ in H. specialize (H ltac:(lia)). lra.
Qed.
Lemma sqdist_nonneg pts dim e pts' e' : (0 <= sqdist pts dim e pts' e')%Q.
Proof. apply (sum_ge (fun k => (at_ pts dim e k - at_ pts' dim e' k) * (at_ pts dim e k - at_ pts' dim e' k))%Q). intros. apply sq_nonneg. Qed.
Definition is_root (root : Q -> Q) : Prop := forall x, (0 <= x -> 0 <= root x /\ x <= root x * root x)%Q.
Lemma sq_lt (a b : Q) : (0 <= a -> a < b -> a * a < b * b)%Q.
Proof.
  intros Ha Hab. apply Qle_lt_trans with (a * b)%Q; [|apply Qmult_lt_compat_r; lra]. setoid_replace (a * b)%Q with (b * a)%Q by ring. apply Qmult_le_compat_r; lra.
Qed.

Section Closest.
Context (root : Q -> Q) (pts : list Q) (dim n : Z) (xx : list Q).
Hypothesis Hroot : is_root root.
Hypothesis HP : points pts dim n.
Hypothesis Hx : is_point xx dim.
Local Notation sq := (fun e => sqdist pts dim e xx 0).
(** The outcome of a search among [es]: the closest one if it is closer than the threshold, else DBL_MAX. *)
Definition outcome (es : list Z) (thr : Q) (r : Q * option Z) : Prop :=
  (exists e, e ∈ es /\ r = (sq e, Some e) /\ (sq e < thr)%Q /\ (sq e < DBL_MAX)%Q /\ forall e', e' ∈ es -> (sq e <= sq e')%Q) \/
  (exists el, r = (DBL_MAX, el) /\ forall e', e' ∈ es -> (thr <= sq e' \/ DBL_MAX <= sq e')%Q).
Lemma leaf_outcome es thr el : (forall e, e ∈ es -> 0 <= e < n) -> exists r,
  foldM (fun '(ret, elem) e => let* tmp := dist2 pts dim xx e in Ok (if ltb tmp thr && ltb tmp ret then (tmp, Some e) else (ret, elem))) es (DBL_MAX, el) = Ok r /\ outcome es thr r.
Proof.
  intros Hr. assert (G : forall rest pre r, (forall e, e ∈ rest -> 0 <= e < n) -> outcome pre thr r -> exists r',
    foldM (fun '(ret, elem) e => let* tmp := dist2 pts dim xx e in Ok (if ltb tmp thr && ltb tmp ret then (tmp, Some e) else (ret, elem))) rest r = Ok r' /\ outcome (pre ++ rest) thr r').
  { induction rest as [|e rest IH]; intros pre [ret elem] Hr' Ho; [exists (ret, elem); rewrite app_nil_r; done|]. cbn [foldM]. rewrite (dist2_ok pts dim n) by (done || apply Hr'; by left). cbn [bind].
    replace (pre ++ e :: rest) with ((pre ++ [e]) ++ rest) by (by rewrite <- app_assoc). apply IH; [intros; apply Hr'; by right|].
    destruct (ltb (sqdist pts dim e xx 0) thr && ltb (sqdist pts dim e xx 0) ret) eqn:Et.
    - apply andb_true_iff in Et as [E1 E2]. rewrite ltb_spec in E1, E2. left. exists e. split; [set_solver|]. split; [done|]. split; [done|].
      destruct Ho as [(e0 & He0 & [= -> ->] & L1 & L2 & L3)|(el0 & [= -> ->] & L)].
      + split; [lra|]. intros e' [He'|He'%elem_of_list_singleton]%elem_of_app; [specialize (L3 e' He'); lra|subst; lra].
      + split; [done|]. intros e' [He'|He'%elem_of_list_singleton]%elem_of_app; [|subst; lra]. destruct (L e' He'); lra.
    - apply andb_false_iff in Et. rewrite !ltb_false in Et. destruct Ho as [(e0 & He0 & [= -> ->] & L1 & L2 & L3)|(el0 & [= -> ->] & L)].
      + left. exists e0. split; [set_solver|]. split; [done|]. split; [done|]. split; [done|]. intros e' [He'|He'%elem_of_list_singleton]%elem_of_app; [auto|]. subst. destruct Et; lra.
      + right. exists el0. split; [done|]. intros e' [He'|He'%elem_of_list_singleton]%elem_of_app; [auto|]. subst. destruct Et; [by left|by right]. }
  destruct (G es [] (DBL_MAX, el) Hr) as (r & E & Ho); [right; exists el; split; [done|set_solver]|]. exists r. done.
Qed.
Lemma inject_dim : (1 <= inject_Z dim)%Q.
Proof. change 1%Q with (inject_Z 1). rewrite <- Zle_Qle. apply HP. Qed.
Lemma far s thr e k : (0 <= thr)%Q -> s = root (thr * inject_Z dim)%Q -> 0 <= k < dim -> (at_ pts dim e k - at_ xx dim 0 k < - s \/ s < at_ pts dim e k - at_ xx dim 0 k)%Q -> (thr <= sq e)%Q.
Proof.
  intros Ht -> Hk Hd. pose proof inject_dim as Hid. pose proof (sqdist_ge pts dim e xx 0 k Hk) as Hs. cbv beta.
  assert (Hm : (thr <= thr * inject_Z dim)%Q). { setoid_replace thr with (thr * 1)%Q at 1 by ring. setoid_replace (thr * 1)%Q with (1 * thr)%Q by ring. setoid_replace (thr * inject_Z dim)%Q with (inject_Z dim * thr)%Q by ring. apply Qmult_le_compat_r; lra. }
  destruct (Hroot (thr * inject_Z dim)%Q ltac:(lra)) as [R1 R2]. set (u := (at_ pts dim e k - at_ xx dim 0 k)%Q) in *. set (s := root _) in *.
  assert (H : (s * s < u * u)%Q). { destruct Hd as [Hd|Hd]; [setoid_replace (u * u)%Q with ((- u) * (- u))%Q by ring|]; apply sq_lt; lra. }
  lra.
Qed.
Lemma closest_ok t s : (0 <= s)%Q -> good (at_ pts dim) (at_ pts dim) dim n s t -> forall thr el, (0 <= thr)%Q -> exists r, getClosestPoint root pts dim t xx thr el = Ok r /\ outcome (elts t) thr r.
Proof.
  intros Hs0. induction t as [lev es|lev mL mR l IHl r IHr]; intros G thr el Ht; cbn [getClosestPoint elts good] in *.
  - by apply leaf_outcome.
  - destruct G as (Hlev & HL & HR & Gl & Gr). pose proof HP as (Hd & _). pose proof (mod_axis lev dim Hd) as Hk. rewrite (pt_ok xx dim) by done. cbn [bind]. cbv zeta. set (sr := root (thr * inject_Z dim)%Q).
    assert (COMB : forall a b r0, outcome a thr r0 -> (forall e, e ∈ b -> (thr <= sq e)%Q) -> outcome (a ++ b) thr r0).
    { intros a b r0 [(e & He & -> & L1 & L2 & L3)|(el0 & -> & L)] Hb; [left|right].
      - exists e. split; [set_solver|]. split; [done|]. split; [done|]. split; [done|]. intros e' [He'|He']%elem_of_app; [auto|]. specialize (Hb e' He'). cbv beta in *. lra.
      - exists el0. split; [done|]. intros e' [He'|He']%elem_of_app; [auto|]. left. auto. }
    assert (SWAP : forall a b r0, outcome (a ++ b) thr r0 -> outcome (b ++ a) thr r0).
    { intros a b r0 [(e & He & -> & L1 & L2 & L3)|(el0 & -> & L)]; [left|right].
      - exists e. split; [set_solver|]. split; [done|]. split; [done|]. split; [done|]. intros e' He'. apply L3. set_solver.
      - exists el0. split; [done|]. intros e' He'. apply L. set_solver. }
    destruct (ltb _ mR) eqn:E1; [|destruct (ltb mL _) eqn:E2].
    + destruct (IHl Gl thr el Ht) as (r0 & E & Ho). exists r0. split; [done|]. apply COMB; [done|]. intros e He. apply ltb_spec in E1. specialize (HR e He).
      apply (far sr thr e (lev mod dim)); [done|done|done|]. right. lra.
    + destruct (IHr Gr thr el Ht) as (r0 & E & Ho). exists r0. split; [done|]. apply SWAP, COMB; [done|]. intros e He. apply ltb_spec in E2. specialize (HL e He).
      apply (far sr thr e (lev mod dim)); [done|done|done|]. left. lra.
    + clear E1 E2. destruct (IHl Gl thr None Ht) as ([rl el'] & E & Ho). rewrite E. cbn [bind]. destruct (IHr Gr thr None Ht) as ([rr er] & E' & Ho'). rewrite E'. cbn [bind]. eexists. split; [done|].
      destruct Ho as [(e & He & [= -> ->] & L1 & L2 & L3)|(el0 & [= -> ->] & L)], Ho' as [(e' & He' & [= -> ->] & M1 & M2 & M3)|(el1 & [= -> ->] & M)].
      * destruct (ltb _ _) eqn:Elt; [apply ltb_spec in Elt|apply ltb_false in Elt]; left.
        -- exists e. split; [set_solver|]. split; [done|]. split; [done|]. split; [done|]. intros x [Hx'|Hx']%elem_of_app; [auto|]. specialize (M3 x Hx'). lra.
        -- exists e'. split; [set_solver|]. split; [done|]. split; [done|]. split; [done|]. intros x [Hx'|Hx']%elem_of_app; [|auto]. specialize (L3 x Hx'). lra.
      * replace (ltb _ _) with true by (symmetry; by apply ltb_spec). left. exists e. split; [set_solver|]. split; [done|]. split; [done|]. split; [done|]. intros x [Hx'|Hx']%elem_of_app; [auto|]. destruct (M x Hx'); lra.
      * replace (ltb _ _) with false by (symmetry; apply ltb_false; lra). left. exists e'. split; [set_solver|]. split; [done|]. split; [done|]. split; [done|]. intros x [Hx'|Hx']%elem_of_app; [|auto]. destruct (L x Hx'); lra.
      * replace (ltb _ _) with false by (symmetry; apply ltb_false; lra). right. exists el1. split; [done|]. intros x [Hx'|Hx']%elem_of_app; auto.
Qed.
Context (t : tree) (s : Q).
Hypothesis Hs : (0 <= s)%Q.
Hypothesis HG : good (at_ pts dim) (at_ pts dim) dim n s t.
Hypothesis Helts : elts t ≡ₚ seqZ 0 n.
Hypothesis Hn : 1 <= n.
Hypothesis Hbig : forall e, 0 <= e < n -> (sq e < DBL_MAX)%Q.
Definition closest (e : Z) : Prop := 0 <= e < n /\ forall e', 0 <= e' < n -> (sq e <= sq e')%Q.
Fixpoint pw (k : nat) : Q := match k with O => 1%Q | Datatypes.S k => (2 * pw k)%Q end.
Lemma pw_ge k : (1 <= pw k)%Q /\ (inject_Z (Z.of_nat k) <= pw k)%Q.
Proof.
  induction k as [|k [IH1 IH2]]; [split; [cbn; lra|change (inject_Z (Z.of_nat 0)) with 0%Q; cbn [pw]; lra]|]. cbn [pw]. split; [lra|]. rewrite Nat2Z.inj_succ. unfold Z.succ. rewrite inject_Z_plus. change (inject_Z 1) with 1%Q. lra.
Qed.
Lemma seek_ok k : forall d, (0 < d)%Q -> (exists e, 0 <= e < n /\ (sq e < pw k * d)%Q) -> exists d' e, (0 < d')%Q /\ closest e /\ forall fuel, (k < fuel)%nat -> seek fuel root pts dim t xx d = Ok (d', Some e).
Proof.
  induction k as [|k IH]; intros d Hd (e0 & He0 & Hlt).
  all: destruct (closest_ok t s Hs HG d (Some (-1)) ltac:(lra)) as (r & E & Ho).
  all: destruct Ho as [(e & He & -> & L1 & L2 & L3)|(el & -> & L)].
  1, 3: rewrite Helts, elem_of_seqZ in He; exists (qmax (sq e) (1 # 10000)), e; split; [unfold qmax; destruct (ltb _ _) eqn:El; [lra|apply ltb_false in El; lra]|]; split; [split; [lia|]; intros e' He'; apply L3; rewrite Helts, elem_of_seqZ; lia|];
    intros [|fuel] Hf; [lia|]; cbn [seek]; rewrite E; cbn [bind]; replace (Qeq_bool _ DBL_MAX) with false; [done|]; symmetry; apply not_true_is_false; rewrite Qeq_bool_iff; lra.
  - exfalso. destruct (L e0) as [H|H]; [rewrite Helts, elem_of_seqZ; lia| |specialize (Hbig e0 He0); cbv beta in *; lra]. cbn [pw] in Hlt. cbv beta in *. lra.
  - destruct (IH (2 * d)%Q ltac:(lra)) as (d' & e & D1 & D2 & D3); [exists e0; split; [done|]; cbn [pw] in Hlt; cbv beta in *; lra|]. exists d', e. split; [done|]. split; [done|].
    intros [|fuel] Hf; [lia|]. cbn [seek]. rewrite E. cbn [bind]. replace (Qeq_bool DBL_MAX DBL_MAX) with true by (symmetry; apply Qeq_bool_iff; lra). cbn [negb]. apply D3. lia.
Qed.
Lemma seek_found d : (0 < d)%Q -> exists F d' e, (0 < d')%Q /\ closest e /\ forall fuel, (F < fuel)%nat -> seek fuel root pts dim t xx d = Ok (d', Some e).
Proof.
  intros Hd. destruct (Qarchimedean (sq 0 / d)) as [p Hp]. exists (Pos.to_nat p). apply seek_ok; [done|]. exists 0. split; [lia|]. cbv beta in *.
  destruct (pw_ge (Pos.to_nat p)) as [_ H]. rewrite positive_nat_Z in H. apply Qlt_le_trans with (inject_Z (Z.pos p) * d)%Q; [|apply Qmult_le_compat_r; lra].
  apply (Qmult_lt_compat_r _ _ d) in Hp; [|done]. setoid_replace (sqdist pts dim 0 xx 0 / d * d)%Q with (sqdist pts dim 0 xx 0) in Hp by (field; lra). exact Hp.
Qed.
End Closest.
