(** The exchange of meshes: no schedule blocks it. *)
From stdpp Require Import sorting.
From Coq Require Import ZifyBool ZifyNat.
From Verif Require Import Base OverModel OverSpec OverProofs OverProofs2.

(** ** Sorted lists. *)
Lemma SSapp {A} (R : A -> A -> Prop) l l' : StronglySorted R l -> StronglySorted R l' -> (forall x y, x ∈ l -> y ∈ l' -> R x y) -> StronglySorted R (l ++ l').
Proof.
  induction l as [|x l IH]; intros H1 H2 H3; [done|]. apply StronglySorted_inv in H1 as [H1 H4]. cbn. constructor.
  - apply IH; [done..|]. intros a b Ha Hb. apply H3; [by right|done].
  - apply Forall_app. split; [done|]. apply Forall_forall. intros y Hy. apply H3; [left|done].
Qed.
Lemma SSmono {A} (R R' : A -> A -> Prop) l : (forall x y, x ∈ l -> y ∈ l -> R x y -> R' x y) -> StronglySorted R l -> StronglySorted R' l.
Proof.
  induction l as [|x l IH]; intros H1 H2; [constructor|]. apply StronglySorted_inv in H2 as [H2 H3]. constructor.
  - apply IH; [|done]. intros a b Ha Hb. apply H1; by right.
  - rewrite Forall_forall in *. intros y Hy. apply H1; [left|by right|auto].
Qed.
Lemma SSnodup {A} (R : A -> A -> Prop) l : StronglySorted R l -> NoDup l -> StronglySorted (fun x y => R x y /\ x <> y) l.
Proof.
  induction l as [|x l IH]; intros H1 H2; [constructor|]. apply StronglySorted_inv in H1 as [H1 H3]. apply NoDup_cons in H2 as [H2 H4]. constructor; [auto|].
  rewrite Forall_forall in *. intros y Hy. split; [auto|]. by intros ->.
Qed.
Lemma SSconcat {A B} (R : B -> B -> Prop) (f : A -> list B) l : (forall x, x ∈ l -> StronglySorted R (f x)) -> StronglySorted (fun x y => forall a b, a ∈ f x -> b ∈ f y -> R a b) l -> StronglySorted R (concat (f <$> l)).
Proof.
  induction l as [|x l IH]; intros H1 H2; [constructor|]. apply StronglySorted_inv in H2 as [H2 H3]. rewrite fmap_cons. cbn. apply SSapp.
  - apply H1. left.
  - apply IH; [|done]. intros y Hy. apply H1. by right.
  - intros a b Ha (m & Hm & Hb)%elem_concat. apply elem_of_list_fmap in Hm as (y & -> & Hy). rewrite Forall_forall in H3. by apply (H3 y).
Qed.
Lemma SSirr {A} (f : A -> Z) l : StronglySorted (fun x y => f x < f y) l -> NoDup l.
Proof.
  induction l as [|x l IH]; intros H1; [constructor|]. apply StronglySorted_inv in H1 as [H1 H3]. constructor; [|auto]. intros Hx. rewrite Forall_forall in H3. apply H3 in Hx. lia.
Qed.
Lemma SSuniq {A} (f : A -> Z) l l' : StronglySorted (fun x y => f x < f y) l -> StronglySorted (fun x y => f x < f y) l' -> (forall x, x ∈ l <-> x ∈ l') -> l = l'.
Proof.
  revert l'. induction l as [|x l IH]; intros l' H1 H2 H.
  - destruct l' as [|y l']; [done|]. exfalso. apply (elem_of_nil y), H. left.
  - destruct l' as [|y l']; [exfalso; apply (elem_of_nil x), H; left|]. apply StronglySorted_inv in H1 as [H1 H3], H2 as [H2 H4]. rewrite Forall_forall in H3, H4.
    assert (x = y) as ->.
    { assert (Hx : x ∈ y :: l') by (apply H; left). assert (Hy : y ∈ x :: l) by (apply H; left). apply elem_of_cons in Hx as [?|Hx]; [done|]. apply elem_of_cons in Hy as [?|Hy]; [done|]. apply H3 in Hy. apply H4 in Hx. lia. }
    f_equal. apply IH; [done..|]. intros z. specialize (H z). rewrite !elem_of_cons in H. split; intros Hz.
    + destruct (proj1 H) as [->|?]; [by right| |done]. apply H3 in Hz. lia.
    + destruct (proj2 H) as [->|?]; [by right| |done]. apply H4 in Hz. lia.
Qed.
Lemma SSomap {A B} (R : A -> A -> Prop) (R' : B -> B -> Prop) (f : A -> option B) l : (forall x y a b, x ∈ l -> y ∈ l -> R x y -> f x = Some a -> f y = Some b -> R' a b) -> StronglySorted R l -> StronglySorted R' (omap f l).
Proof.
  induction l as [|x l IH]; intros H1 H2; [constructor|]. apply StronglySorted_inv in H2 as [H2 H3]. rewrite Forall_forall in H3.
  assert (IH' : StronglySorted R' (omap f l)). { apply IH; [|done]. intros u v a b Hu Hv. apply H1; by right. }
  cbn. destruct (f x) as [a|] eqn:E; [|done]. constructor; [done|]. apply Forall_forall. intros b (y & Hy & Eb)%elem_of_list_omap. apply (H1 x y); [left|by right|auto|done..].
Qed.

Local Instance sle_trans : Transitive sle.
Proof. intros x y z. unfold sle. intros [H|[E H]] [H'|[E' H']]; [left; lia..|right]. split; [lia|]. by destruct x.2, y.2, z.2. Qed.
Local Instance sle_total : Total sle.
Proof. intros x y. unfold sle. destruct (Z.lt_trichotomy x.1 y.1) as [H|[E|H]]; [tauto| |tauto]. destruct x.2, y.2; cbn; intuition. Qed.
(** ** Order of the actions. *)
Definition K (n s r : Z) (b : bool) (k : Z) : Z := ((s * n + r) * 2 + (if b then 1 else 0)) * 5 + k.
Definition key (n p : Z) (a : act) : Z := match a with Snd q b k => K n p q b k | Rcv q b k => K n q p b k end.
Definition inc (n p : Z) (l : list act) : Prop := StronglySorted (fun a a' => key n p a < key n p a') l.
Definition fits (n p : Z) (a : act) : Prop := match a with Snd q b k | Rcv q b k => 0 <= q < n /\ q <> p /\ 0 <= k < 5 end.
Definition rcv (s : Z) (a : act) : option (bool * Z) := match a with Rcv q b k => if q =? s then Some (b, k) else None | _ => None end.
Definition snd_ (r : Z) (a : act) : option (bool * Z) := match a with Snd q b k => if q =? r then Some (b, k) else None | _ => None end.
Definition want (a : act) : option (Z * bool * Z) := match a with Rcv q b k => Some (q, b, k) | _ => None end.
Lemma rcv_elem s (l : list act) b k : (b, k) ∈ omap (rcv s) l <-> Rcv s b k ∈ l.
Proof.
  rewrite elem_of_list_omap. split.
  - intros ([q b' k'|q b' k'] & H & E); cbn in E; [done|]. destruct (Z.eqb_spec q s) as [->|]; [|done]. by injection E as -> ->.
  - intros H. eexists. split; [exact H|]. cbn. by rewrite Z.eqb_refl.
Qed.
Lemma snd_elem r (l : list act) b k : (b, k) ∈ omap (snd_ r) l <-> Snd r b k ∈ l.
Proof.
  rewrite elem_of_list_omap. split.
  - intros ([q b' k'|q b' k'] & H & E); cbn in E; [|done]. destruct (Z.eqb_spec q r) as [->|]; [|done]. by injection E as -> ->.
  - intros H. eexists. split; [exact H|]. cbn. by rewrite Z.eqb_refl.
Qed.
Lemma want_elem (l : list act) q b k : (q, b, k) ∈ omap want l <-> Rcv q b k ∈ l.
Proof.
  rewrite elem_of_list_omap. split.
  - intros ([q' b' k'|q' b' k'] & H & E); cbn in E; [done|]. by injection E as -> -> ->.
  - intros H. eexists. by split; [exact H|].
Qed.
Lemma K_lt n s r b k s' r' b' k' : 0 <= r < n -> 0 <= r' < n -> 0 <= k < 5 -> 0 <= k' < 5 ->
  s < s' \/ s = s' /\ (r < r' \/ r = r' /\ ((b = false /\ b' = true) \/ b = b' /\ k < k')) -> K n s r b k < K n s' r' b' k'.
Proof. intros Hr Hr' Hk Hk' H. unfold K. destruct H as [H|(-> & H)]; [assert (s * n + n <= s' * n) by nia; destruct b, b'; lia|]. destruct b, b'; intuition (try lia; try congruence). Qed.

Lemma head_min n p a l x : inc n p (a :: l) -> x ∈ a :: l -> key n p a <= key n p x /\ (key n p x = key n p a -> x = a).
Proof. intros [H1 H2]%StronglySorted_inv [->|Hx]%elem_of_cons; [split; [lia|done]|]. rewrite Forall_forall in H2. apply H2 in Hx. lia. Qed.

(** ** The invariant. *)
Lemma upd_eq {A} (f : Z -> A) p x : upd f p x p = x.
Proof. unfold upd. by rewrite Z.eqb_refl. Qed.
Lemma upd_ne {A} (f : Z -> A) p x q : q <> p -> upd f p x q = f q.
Proof. unfold upd. intros H. by replace (q =? p) with false by lia. Qed.
Lemma upd2_eq {A} (f : Z -> Z -> A) p q x : upd2 f p q x p q = x.
Proof. unfold upd2. by rewrite !Z.eqb_refl. Qed.
Lemma upd2_ne {A} (f : Z -> Z -> A) p q x p' q' : ~ (p' = p /\ q' = q) -> upd2 f p q x p' q' = f p' q'.
Proof. unfold upd2. intros H. by replace ((p' =? p) && (q' =? q)) with false by lia. Qed.
Section Run.
Context (n : Z) (Hn : 0 <= n) (progs : Z -> list act).
Definition legal (s : world) : Prop :=
  (forall p, inc n p (prog s p)) /\ (forall p a, a ∈ prog s p -> 0 <= p < n /\ fits n p a) /\
  (forall q r, omap (rcv q) (prog s r) = wire s q r ++ omap (snd_ r) (prog s q)) /\
  (forall p e, e ∈ got s p -> e.2 = (e.1.1.2, e.1.2)) /\
  (forall p, 0 <= p < n -> (got s p).*1 ++ omap want (prog s p) = omap want (progs p)).
Definition left_ (s : world) : nat := sum_list ((fun p => length (prog s p)) <$> seqZ 0 n).

Lemma inc_tail p a l : inc n p (a :: l) -> inc n p l.
Proof. by intros [? _]%StronglySorted_inv. Qed.
Lemma sum_cons x (l : list nat) : sum_list (x :: l) = (x + sum_list l)%nat.
Proof. done. Qed.
Lemma left_upd pg (w : Z -> Z -> list (bool * Z)) (g : Z -> list ((Z * bool * Z) * (bool * Z))) p l : 0 <= p < n -> (left_ (W (upd pg p l) w g) + length (pg p) = left_ (W pg w g) + length l)%nat.
Proof.
  intros Hp. unfold left_. cbn [prog]. assert (Hin : p ∈ seqZ 0 n) by (apply elem_of_seqZ; lia). pose proof (NoDup_seqZ 0 n) as Hd. revert Hin Hd. generalize (seqZ 0 n) as L. clear.
  induction L as [|x L IH]; intros Hin Hd; [by apply elem_of_nil in Hin|]. apply NoDup_cons in Hd as [Hx Hd]. rewrite !fmap_cons, !sum_cons. apply elem_of_cons in Hin as [->|Hin].
  - rewrite upd_eq. assert (E : ((fun p => length (upd pg x l p)) <$> L) = ((fun p => length (pg p)) <$> L)). { apply list_fmap_ext. intros i y Hy. rewrite upd_ne; [done|]. intros ->. apply Hx. by eapply elem_of_list_lookup_2. } rewrite E. lia.
  - rewrite upd_ne by (intros ->; done). specialize (IH Hin Hd). lia.
Qed.

Lemma legal_step s s' : legal s -> step s s' -> legal s' /\ (left_ s' < left_ s)%nat.
Proof.
  intros (J1 & J2 & J3 & J4 & J5) Hs. destruct Hs as [s s' Hm|pg w g p q b k rest Hp].
  - destruct Hm as [pg w g p q b k rest pre b' post Hp Hw Hpre|pg w g p q b b' k rest rest' Hpq Hp Hq Hw]; cbn [prog wire got] in *.
    + destruct (J2 p (Rcv q b k)) as (Hr & Hq & Hne & Hk); [rewrite Hp; left|]. pose proof (J3 q p) as Hqp. rewrite Hp, Hw in Hqp. cbn in Hqp. rewrite Z.eqb_refl in Hqp. rewrite <- app_assoc in Hqp.
      destruct pre as [|x pre]; [|injection Hqp as <- _; destruct (Hpre (b, k)); [left|done]]. cbn in Hqp. injection Hqp as <- Hqp. cbn [app].
      split. 2: { pose proof (left_upd pg (upd2 w q p post) (upd g p (g p ++ [(q, b, k, (b, k))])) p rest Hr) as L. rewrite Hp in L. cbn [length] in L. unfold left_ in *. cbn [prog] in *. lia. }
      split; [|split; [|split; [|split]]]; cbn [prog wire got].
      * intros p'. destruct (decide (p' = p)) as [->|]; [rewrite upd_eq; apply (inc_tail p (Rcv q b k)); by rewrite <- Hp|by rewrite upd_ne].
      * intros p' a Ha. destruct (decide (p' = p)) as [->|]; [rewrite upd_eq in Ha; apply J2; rewrite Hp; by right|rewrite upd_ne in Ha by done; auto].
      * intros q' r. assert (Hs : omap (snd_ r) (upd pg p rest q') = omap (snd_ r) (pg q')). { destruct (decide (q' = p)) as [->|]; [|by rewrite upd_ne]. by rewrite upd_eq, Hp. } rewrite Hs.
        destruct (decide (r = p)) as [->|]; [|rewrite upd_ne, upd2_ne by tauto; apply J3]. rewrite upd_eq. destruct (decide (q' = q)) as [->|]; [by rewrite upd2_eq|].
        rewrite upd2_ne by tauto. rewrite <- J3, Hp. cbn. by replace (q =? q') with false by lia.
      * intros p' e He. destruct (decide (p' = p)) as [->|]; [|rewrite upd_ne in He by done; eauto]. rewrite upd_eq in He. apply elem_of_app in He as [?| ->%elem_of_list_singleton]; [eauto|done].
      * intros p' Hp'. rewrite <- J5 by done. destruct (decide (p' = p)) as [->|]; [|by rewrite !upd_ne]. rewrite !upd_eq, Hp, fmap_app. cbn. by rewrite <- app_assoc.
    + destruct (J2 p (Snd q b k)) as (Hr & Hqr & Hne & Hk); [rewrite Hp; left|]. pose proof (J3 p q) as Hqp. rewrite Hp, Hq in Hqp. cbn in Hqp. rewrite !Z.eqb_refl in Hqp.
      destruct (w p q) as [|x m] eqn:Ew; [|injection Hqp as <- _; destruct (Hw (b', k)); [left|done]]. cbn in Hqp. injection Hqp as -> Hqp.
      split. 2: { pose proof (left_upd (upd pg p rest) w (upd g q (g q ++ [(p, b, k, (b, k))])) q rest' Hqr) as L. rewrite upd_ne in L by done. rewrite Hq in L.
        pose proof (left_upd pg w g p rest Hr) as L'. rewrite Hp in L'. cbn [length] in *. unfold left_ in *. cbn [prog] in *. lia. }
      split; [|split; [|split; [|split]]]; cbn [prog wire got].
      * intros p'. destruct (decide (p' = q)) as [->|]; [rewrite upd_eq; apply (inc_tail q (Rcv p b k)); by rewrite <- Hq|rewrite upd_ne by done]. destruct (decide (p' = p)) as [->|]; [rewrite upd_eq; apply (inc_tail p (Snd q b k)); by rewrite <- Hp|by rewrite upd_ne].
      * intros p' a Ha. destruct (decide (p' = q)) as [->|]; [rewrite upd_eq in Ha; apply J2; rewrite Hq; by right|rewrite upd_ne in Ha by done]. destruct (decide (p' = p)) as [->|]; [rewrite upd_eq in Ha; apply J2; rewrite Hp; by right|rewrite upd_ne in Ha by done; auto].
      * intros s r. destruct (decide (s = p /\ r = q)) as [[-> ->]|Hd]; [rewrite upd_eq, (upd_ne _ q rest' p), upd_eq, Ew by done; done|].
        assert (E1 : omap (rcv s) (upd (upd pg p rest) q rest' r) = omap (rcv s) (pg r)).
        { destruct (decide (r = q)) as [->|]; [rewrite upd_eq, Hq; cbn; by replace (p =? s) with false by lia|]. rewrite upd_ne by done. destruct (decide (r = p)) as [->|]; [by rewrite upd_eq, Hp|by rewrite upd_ne]. }
        assert (E2 : omap (snd_ r) (upd (upd pg p rest) q rest' s) = omap (snd_ r) (pg s)).
        { destruct (decide (s = q)) as [->|]; [by rewrite upd_eq, Hq|]. rewrite upd_ne by done. destruct (decide (s = p)) as [->|]; [|by rewrite upd_ne]. rewrite upd_eq, Hp. cbn. by replace (q =? r) with false by lia. }
        rewrite E1, E2. apply J3.
      * intros p' e He. destruct (decide (p' = q)) as [->|]; [|rewrite upd_ne in He by done; eauto]. rewrite upd_eq in He. apply elem_of_app in He as [?| ->%elem_of_list_singleton]; [eauto|done].
      * intros p' Hp'. rewrite <- J5 by done. destruct (decide (p' = q)) as [->|]; [rewrite !upd_eq, Hq, fmap_app; cbn; by rewrite <- app_assoc|]. rewrite !(upd_ne _ q) by done.
        destruct (decide (p' = p)) as [->|]; [by rewrite upd_eq, Hp|by rewrite upd_ne].
  - cbn [prog wire got] in *. destruct (J2 p (Snd q b k)) as (Hr & Hqr & Hne & Hk); [rewrite Hp; left|].
    split. 2: { pose proof (left_upd pg w g p rest Hr) as L'. rewrite Hp in L'. cbn [length] in *. unfold left_ in *. cbn [prog] in *. lia. }
    split; [|split; [|split; [|split]]]; cbn [prog wire got].
    + intros p'. destruct (decide (p' = p)) as [->|]; [rewrite upd_eq; apply (inc_tail p (Snd q b k)); by rewrite <- Hp|by rewrite upd_ne].
    + intros p' a Ha. destruct (decide (p' = p)) as [->|]; [rewrite upd_eq in Ha; apply J2; rewrite Hp; by right|rewrite upd_ne in Ha by done; auto].
    + intros s r. assert (E1 : omap (rcv s) (upd pg p rest r) = omap (rcv s) (pg r)). { destruct (decide (r = p)) as [->|]; [by rewrite upd_eq, Hp|by rewrite upd_ne]. } rewrite E1, J3.
      destruct (decide (s = p)) as [->|]; [|rewrite upd2_ne, upd_ne by tauto; done]. rewrite upd_eq, Hp. cbn. destruct (Z.eqb_spec q r) as [->|]; [rewrite upd2_eq, <- app_assoc; done|]. rewrite upd2_ne by lia. done.
    + done.
    + intros p' Hp'. rewrite <- J5 by done. destruct (decide (p' = p)) as [->|]; [by rewrite upd_eq, Hp|by rewrite upd_ne].
Qed.

Lemma legal_move s : legal s -> finished s \/ exists s', move s s'.
Proof using Hn.
  intros (J1 & J2 & J3 & J4 & J5). destruct s as [pg w g]. cbn [prog wire got] in *.
  assert (Hmin : (forall p, p ∈ seqZ 0 n -> pg p = []) \/ exists p a rest, pg p = a :: rest /\ forall p' a' rest', p' ∈ seqZ 0 n -> pg p' = a' :: rest' -> key n p a <= key n p' a').
  { generalize (seqZ 0 n) as L. induction L as [|x L IH]; [left; by intros p ?%elem_of_nil|]. destruct (pg x) as [|a rest] eqn:Ex.
    - destruct IH as [IH|(p & a & rest & Hp & IH)]; [left; by intros p [->|?]%elem_of_cons; auto|]. right. exists p, a, rest. split; [done|]. intros p' a' rest' [->|Hp']%elem_of_cons E'; [congruence|eauto].
    - right. destruct IH as [IH|(p & a0 & rest0 & Hp & IH)].
      + exists x, a, rest. split; [done|]. intros p' a' rest' [->|Hp']%elem_of_cons E'; [rewrite Ex in E'; injection E' as <- <-; lia|]. rewrite IH in E' by done. done.
      + destruct (Z.le_ge_cases (key n p a0) (key n x a)) as [Hle|Hge].
        * exists p, a0, rest0. split; [done|]. intros p' a' rest' [->|Hp']%elem_of_cons E'; [rewrite Ex in E'; injection E' as <- <-; done|eauto].
        * exists x, a, rest. split; [done|]. intros p' a' rest' [->|Hp']%elem_of_cons E'; [rewrite Ex in E'; injection E' as <- <-; lia|]. specialize (IH _ _ _ Hp' E'). lia. }
  assert (Hall : forall p a, a ∈ pg p -> p ∈ seqZ 0 n). { intros p a Ha. apply J2 in Ha as [Hp _]. apply elem_of_seqZ. lia. }
  destruct Hmin as [Hnil|(p & a & rest & Hp & Hmin)].
  - left. assert (Hz : forall p, pg p = []). { intros p. destruct (pg p) as [|a l] eqn:E; [done|]. rewrite <- E. apply Hnil, (Hall p a). rewrite E. left. }
    split; [exact Hz|]. intros q r. cbn [wire]. specialize (J3 q r). rewrite !Hz in J3. cbn in J3. by rewrite app_nil_r in J3.
  - right. cbn [key] in Hmin.
    assert (Hhead : forall q x, x ∈ pg q -> key n q x <= key n p a -> exists rest', pg q = x :: rest').
    { intros q x Hx Hk. pose proof (Hall q x Hx) as Hq. pose proof (J1 q) as Hi. destruct (pg q) as [|y l] eqn:E; [by apply elem_of_nil in Hx|]. destruct (head_min n q y l x Hi Hx) as [H1 H2].
      specialize (Hmin q y l Hq E). rewrite H2 by lia. eauto. }
    destruct a as [q b k|q b k].
    + destruct (J2 p (Snd q b k)) as (Hr & Hqr & Hne & Hk); [rewrite Hp; left|]. pose proof (J3 p q) as E. rewrite Hp in E. cbn in E. rewrite Z.eqb_refl in E. destruct (w p q) as [|[b0 k0] m] eqn:Ew.
      * destruct (Hhead q (Rcv p b k)) as (rest' & Hq); [apply rcv_elem; rewrite E; left|cbn [key]; lia|].
        eexists. eapply Meet; [by apply not_eq_sym|exact Hp|exact Hq|]. rewrite Ew. by intros x ?%elem_of_nil.
      * exfalso. assert (H0 : Rcv p b0 k0 ∈ pg q) by (apply rcv_elem; rewrite E; left).
        assert (Hlt : key n q (Rcv p b0 k0) < key n q (Rcv p b k)).
        { assert (Ss : StronglySorted (fun x y : bool * Z => key n q (Rcv p x.1 x.2) < key n q (Rcv p y.1 y.2)) (omap (rcv p) (pg q))).
          { eapply SSomap; [|apply J1]. intros [|q1 b1 k1] [|q2 b2 k2] x y _ _ Hlt X Y; cbn in X, Y; try done. destruct (Z.eqb_spec q1 p) as [->|]; [|done]. destruct (Z.eqb_spec q2 p) as [->|]; [|done]. injection X as <-. injection Y as <-. done. }
          rewrite E in Ss. cbn in Ss. apply StronglySorted_inv in Ss as [_ Hf]. rewrite Forall_forall in Hf. apply (Hf (b, k)). apply elem_of_app. right. left. }
        destruct (Hhead q (Rcv p b0 k0) H0) as (rest' & Hq); [cbn [key] in *; lia|]. assert (Hm := Hmin q (Rcv p b0 k0) rest' (Hall _ _ H0) Hq). cbn [key] in *. lia.
    + destruct (J2 p (Rcv q b k)) as (Hr & Hqr & Hne & Hk); [rewrite Hp; left|]. pose proof (J3 q p) as E. rewrite Hp in E. cbn in E. rewrite Z.eqb_refl in E. destruct (w q p) as [|[b0 k0] m] eqn:Ew.
      * cbn in E. destruct (Hhead q (Snd p b k)) as (rest' & Hq); [apply snd_elem; rewrite <- E; left|cbn [key]; lia|].
        eexists. eapply Meet; [exact Hne|exact Hq|exact Hp|]. rewrite Ew. by intros x ?%elem_of_nil.
      * cbn in E. injection E as <- <- _. eexists. eapply (Deliver _ _ _ _ _ _ _ _ []); [exact Hp|cbn; exact Ew|]. by intros x ?%elem_of_nil.
Qed.
Lemma steps_ok m s0 s : steps m s0 s -> legal s0 -> legal s /\ (m + left_ s <= left_ s0)%nat.
Proof using All.
  induction 1 as [s|m s s1 s2 Hs IH H1]; intros H0; [split; [done|lia]|]. destruct (IH H0) as [IH1 IH2]. destruct (legal_step _ _ IH1 H1) as [? ?]. split; [done|lia].
Qed.
End Run.

(** ** The programs. *)
Section Exchange.
Context (n : Z) (Hn : 0 <= n) (inter : Z -> Z -> bool) (todo : list (list couple)) (Hsh : shared n inter todo).
Lemma todo_at p c : c ∈ at_ todo p -> 0 <= p < n /\ todo @ p = Some (at_ todo p) /\ interact n inter c /\ (p = c.1 \/ p = c.2).
Proof using All. intros Hc. destruct (at_range _ _ _ Hc) as [H1 H2]. destruct Hsh as (S1 & S2 & _ & _). rewrite S1 in H1. destruct (S2 _ _ H2) as [_ H3]. split; [done|]. split; [done|]. auto. Qed.
Lemma todo_nodup p : NoDup (at_ todo p).
Proof using All. destruct (todo @ p) as [l|] eqn:E; [rewrite (at_look _ _ _ E); by eapply Hsh|]. unfold at_. rewrite E. constructor. Qed.
Lemma needs_at p q b : needs todo p q b <-> p <> q /\ (if b then (q, p) else (p, q)) ∈ at_ todo p.
Proof using All.
  unfold needs. split; (intros [H1 H2]; split; [done|]).
  - destruct H2 as (l & E & ?). by rewrite (at_look _ _ _ E).
  - destruct (todo_at _ _ H2) as (_ & E & _). eauto.
Qed.
Lemma toReceive_elem first me q b : (q, b) ∈ toReceive first me (at_ todo me) <-> needs todo me q b /\ (q <? me) = first.
Proof using All.
  unfold toReceive. rewrite elem_concat, needs_at. split.
  - intros (l & ([x y] & -> & Hc)%elem_of_list_fmap & Hl). cbn [fst snd] in Hl. destruct (todo_at _ _ Hc) as (_ & _ & _ & Hs). cbn [fst snd] in Hs. destruct (Z.eqb_spec x y) as [->|Hne]; [by apply elem_of_nil in Hl|].
    destruct (Z.eqb_spec x me) as [->|Hx].
    + destruct (Bool.eqb_spec (y <? me) first); [|by apply elem_of_nil in Hl]. apply elem_of_list_singleton in Hl as [= -> ->]. done.
    + destruct (Bool.eqb_spec (x <? me) first); [|by apply elem_of_nil in Hl]. apply elem_of_list_singleton in Hl as [= -> ->]. assert (y = me) as -> by lia. split; [|done]. split; [lia|done].
  - intros [[Hne Hc] Hf]. eexists. split; [apply elem_of_list_fmap; eexists; split; [reflexivity|exact Hc]|]. destruct b; cbn [fst snd].
    + replace (q =? me) with false by lia. rewrite Hf, Bool.eqb_reflx. left.
    + replace (me =? q) with false by lia. rewrite Z.eqb_refl, Hf, Bool.eqb_reflx. left.
Qed.
Lemma toReceive_nodup first me : NoDup (toReceive first me (at_ todo me)).
Proof using All.
  unfold toReceive. apply NoDup_concat.
  - intros l ([x y] & -> & _)%elem_of_list_fmap. cbn [fst snd]. destruct (x =? y); [constructor|]. destruct (x =? me); [destruct (Bool.eqb (y <? me) first)|destruct (Bool.eqb (x <? me) first)]; repeat constructor; by intros ?%elem_of_nil.
  - intros i j [q b] l l' Hi Hj Hl Hl'. rewrite list_lookup_fmap in Hi, Hj. apply fmap_Some in Hi as ([x y] & Hi & ->), Hj as ([x' y'] & Hj & ->). cbn [fst snd] in *.
    destruct (todo_at _ _ (elem_of_list_lookup_2 _ _ _ Hi)) as (_ & _ & _ & Hs). destruct (todo_at _ _ (elem_of_list_lookup_2 _ _ _ Hj)) as (_ & _ & _ & Hs'). cbn [fst snd] in *.
    enough (E : x = x' /\ y = y') by (destruct E as [-> ->]; eapply (NoDup_lookup (at_ todo me)); [apply todo_nodup|exact Hi|exact Hj]). split.
    all: destruct (Z.eqb_spec x y) as [->|Hne]; [by apply elem_of_nil in Hl|]; destruct (Z.eqb_spec x' y') as [->|Hne']; [by apply elem_of_nil in Hl'|].
    all: destruct (Z.eqb_spec x me) as [->|Hx], (Z.eqb_spec x' me) as [->|Hx']; repeat match type of Hl with _ ∈ (if ?c then _ else _) => destruct c; [|by apply elem_of_nil in Hl] end; repeat match type of Hl' with _ ∈ (if ?c then _ else _) => destruct c; [|by apply elem_of_nil in Hl'] end; apply elem_of_list_singleton in Hl, Hl'; rewrite Hl in Hl'; assert (E1 := f_equal fst Hl'); assert (E2 := f_equal snd Hl'); cbn [fst snd] in E1, E2; try done; lia.
Qed.
Lemma send_elem me q b : (q, b) ∈ procsToSendMesh n me todo <-> needs todo q me b.
Proof using All.
  unfold procsToSendMesh. rewrite elem_concat, needs_at. split.
  - intros (l & (i & -> & Hi)%elem_of_list_fmap & Hl). apply elem_concat in Hl as (l & ([x y] & -> & Hc)%elem_of_list_fmap & Hl). cbn [fst snd] in Hl. destruct (todo_at _ _ Hc) as (_ & _ & _ & Hs). cbn [fst snd] in Hs.
    apply elem_of_app in Hl as [Hl|Hl].
    + destruct ((x =? me) && negb (i =? me)) eqn:E; [|by apply elem_of_nil in Hl]. apply elem_of_list_singleton in Hl as [= -> ->]. split; [lia|]. assert (x = me) as -> by lia. assert (y = i) as -> by lia. done.
    + destruct ((y =? me) && negb (i =? me)) eqn:E; [|by apply elem_of_nil in Hl]. apply elem_of_list_singleton in Hl as [= -> ->]. split; [lia|]. assert (y = me) as -> by lia. assert (x = i) as -> by lia. done.
  - intros [Hne Hc]. destruct (todo_at _ _ Hc) as (Hq & _). eexists. split; [apply elem_of_list_fmap; exists q; split; [reflexivity|apply elem_of_seqZ; lia]|]. apply elem_concat. eexists. split; [apply elem_of_list_fmap; eexists; split; [reflexivity|exact Hc]|].
    apply elem_of_app. destruct b; cbn [fst snd]; rewrite Z.eqb_refl; replace (q =? me) with false by lia; cbn; [left|right]; left.
Qed.
Lemma send_nodup me : NoDup (procsToSendMesh n me todo).
Proof using All.
  unfold procsToSendMesh.
  assert (Hin : forall i l e, l = concat ((fun pc : couple => (if (pc.1 =? me) && negb (i =? me) then [(i, true)] else []) ++ (if (pc.2 =? me) && negb (i =? me) then [(i, false)] else [])) <$> at_ todo i) -> e ∈ l -> e.1 = i).
  { intros i l e -> (l1 & (pc & -> & _)%elem_of_list_fmap & He)%elem_concat. apply elem_of_app in He as [He|He]; destruct (_ && _); try (by apply elem_of_nil in He); by apply elem_of_list_singleton in He as ->. }
  apply NoDup_concat.
  - intros l (i & -> & Hi)%elem_of_list_fmap. apply NoDup_concat.
    + intros l ([x y] & -> & Hc)%elem_of_list_fmap. destruct (todo_at _ _ Hc) as (_ & _ & _ & Hs). cbn [fst snd] in *. apply NoDup_app. split; [destruct (_ && _); repeat constructor; by intros ?%elem_of_nil|]. split; [|destruct (_ && _); repeat constructor; by intros ?%elem_of_nil].
      intros e He He'. destruct ((x =? me) && negb (i =? me)) eqn:E1; [|by apply elem_of_nil in He]. destruct ((y =? me) && negb (i =? me)) eqn:E2; [|by apply elem_of_nil in He']. lia.
    + intros a b e l l' Ha Hb Hl Hl'. rewrite list_lookup_fmap in Ha, Hb. apply fmap_Some in Ha as ([x y] & Ha & ->), Hb as ([x' y'] & Hb & ->). cbn [fst snd] in *.
      destruct (todo_at _ _ (elem_of_list_lookup_2 _ _ _ Ha)) as (_ & _ & _ & Hs). destruct (todo_at _ _ (elem_of_list_lookup_2 _ _ _ Hb)) as (_ & _ & _ & Hs'). cbn [fst snd] in *.
      enough (E : x = x' /\ y = y') by (destruct E as [-> ->]; eapply (NoDup_lookup (at_ todo i)); [apply todo_nodup|exact Ha|exact Hb]). split.
      all: destruct (Z.eqb_spec x me) as [->|Hx], (Z.eqb_spec x' me) as [->|Hx'], (Z.eqb_spec y me) as [->|Hy], (Z.eqb_spec y' me) as [->|Hy'], (Z.eqb_spec i me) as [->|Him]; cbn [andb negb app] in *; try (by apply elem_of_nil in Hl); try (by apply elem_of_nil in Hl'); try done; try lia;
        apply elem_of_list_singleton in Hl, Hl'; congruence.
  - intros a b e l l' Ha Hb Hl Hl'. rewrite list_lookup_fmap in Ha, Hb. apply fmap_Some in Ha as (i & Ha & Ea), Hb as (j & Hb & Eb). assert (i = j) as -> by (rewrite <- (Hin i l e), <- (Hin j l' e); done).
    eapply NoDup_lookup; [apply (NoDup_seqZ 0 n)|exact Ha|exact Hb].
Qed.
Lemma field_elem me j : j ∈ procsToSendField n me todo <-> interact n inter (me, j).
Proof using All.
  unfold procsToSendField. rewrite elem_concat. split.
  - intros (l & (i & -> & Hi)%elem_of_list_fmap & Hl). apply elem_concat in Hl as (l & ([x y] & -> & Hc)%elem_of_list_fmap & Hl). cbn [fst snd] in Hl. destruct (Z.eqb_spec x me) as [->|]; [|by apply elem_of_nil in Hl]. apply elem_of_list_singleton in Hl as ->. by apply todo_at in Hc as (_ & _ & ? & _).
  - intros Hi. destruct Hsh as (S1 & S2 & S3 & S4). destruct (S3 _ Hi) as (p & l & Hp & Hl). eexists. split; [apply elem_of_list_fmap; exists p; split; [reflexivity|apply elem_of_seqZ; apply zlook_Some_lt in Hp; lia]|].
    apply elem_concat. eexists. split; [apply elem_of_list_fmap; eexists; split; [reflexivity|rewrite (at_look _ _ _ Hp); exact Hl]|]. cbn [fst snd]. rewrite Z.eqb_refl. left.
Qed.
Lemma field_nodup me : NoDup (procsToSendField n me todo).
Proof using All.
  unfold procsToSendField. apply NoDup_concat.
  - intros l (i & -> & Hi)%elem_of_list_fmap. apply NoDup_concat.
    + intros l ([x y] & -> & Hc)%elem_of_list_fmap. cbn [fst]. destruct (x =? me); repeat constructor; by intros ?%elem_of_nil.
    + intros a b e l l' Ha Hb Hl Hl'. rewrite list_lookup_fmap in Ha, Hb. apply fmap_Some in Ha as ([x y] & Ha & ->), Hb as ([x' y'] & Hb & ->). cbn [fst snd] in *.
      enough (E : x = x' /\ y = y') by (destruct E as [-> ->]; eapply (NoDup_lookup (at_ todo i)); [apply todo_nodup|exact Ha|exact Hb]). destruct (Z.eqb_spec x me) as [->|Hx]; [|by apply elem_of_nil in Hl]. destruct (Z.eqb_spec x' me) as [->|Hx']; [|by apply elem_of_nil in Hl']. apply elem_of_list_singleton in Hl, Hl'. split; congruence.
  - intros a b e l l' Ha Hb Hl Hl'. rewrite list_lookup_fmap in Ha, Hb. apply fmap_Some in Ha as (i & Ha & ->), Hb as (j & Hb & ->).
    apply elem_concat in Hl as (m & ([x y] & -> & Hc)%elem_of_list_fmap & Hl), Hl' as (m' & ([x' y'] & -> & Hc')%elem_of_list_fmap & Hl'). cbn [fst snd] in *.
    destruct (Z.eqb_spec x me) as [->|]; [|by apply elem_of_nil in Hl]. destruct (Z.eqb_spec x' me) as [->|]; [|by apply elem_of_nil in Hl']. apply elem_of_list_singleton in Hl as ->. apply elem_of_list_singleton in Hl' as ->.
    assert (i = j) as ->. { destruct (todo_at _ _ Hc) as (_ & Ei & _). destruct (todo_at _ _ Hc') as (_ & Ej & _). by eapply Hsh. }
    eapply NoDup_lookup; [apply (NoDup_seqZ 0 n)|exact Ha|exact Hb].
Qed.

Lemma needs_range p q b : needs todo p q b -> 0 <= p < n /\ 0 <= q < n /\ q <> p.
Proof using All. intros [Hne Hc]%needs_at. destruct (todo_at _ _ Hc) as (Hp & _ & (H1 & H2 & _) & _). destruct b; cbn [fst snd] in *; lia. Qed.
Lemma parts_elem f a : a ∈ parts f <-> exists k, 0 <= k < 5 /\ a = f k.
Proof.
  unfold parts. rewrite elem_of_list_fmap. split.
  - intros (k & -> & Hk). exists k. split; [|done]. rewrite !elem_of_cons, elem_of_nil in Hk. lia.
  - intros (k & Hk & ->). exists k. split; [done|]. rewrite !elem_of_cons, elem_of_nil. lia.
Qed.
Lemma block_elem (f : spair -> Z -> act) l a : a ∈ concat ((fun s => parts (f s)) <$> merge_sort sle l) <-> exists s k, s ∈ l /\ 0 <= k < 5 /\ a = f s k.
Proof.
  rewrite elem_concat. split.
  - intros (m & (s & -> & Hs)%elem_of_list_fmap & Ha). apply parts_elem in Ha as (k & Hk & ->). rewrite merge_sort_Permutation in Hs. eauto.
  - intros (s & k & Hs & Hk & ->). exists (parts (f s)). split; [|apply parts_elem; eauto]. apply elem_of_list_fmap. exists s. split; [done|]. by rewrite merge_sort_Permutation.
Qed.
Lemma exch_rcv p q b k : Rcv q b k ∈ exchangeMeshes n p todo <-> needs todo p q b /\ 0 <= k < 5.
Proof using All.
  unfold exchangeMeshes. rewrite !elem_of_app, !(block_elem (fun s => Rcv s.1 s.2)), (block_elem (fun s => Snd s.1 s.2)). split.
  - intros [([q' b'] & k' & Hs & Hk & [= -> -> ->])|[([q' b'] & k' & Hs & Hk & [=])|([q' b'] & k' & Hs & Hk & [= -> -> ->])]]; apply toReceive_elem in Hs as [? _]; done.
  - intros [Hne Hk]. destruct (q <? p) eqn:E; [left|right; right]; exists (q, b), k; (split; [by apply toReceive_elem|done]).
Qed.
Lemma exch_snd p q b k : Snd q b k ∈ exchangeMeshes n p todo <-> needs todo q p b /\ 0 <= k < 5.
Proof using All.
  unfold exchangeMeshes. rewrite !elem_of_app, !(block_elem (fun s => Rcv s.1 s.2)), (block_elem (fun s => Snd s.1 s.2)). split.
  - intros [([q' b'] & k' & Hs & Hk & [=])|[([q' b'] & k' & Hs & Hk & [= -> -> ->])|([q' b'] & k' & Hs & Hk & [=])]]. by apply send_elem in Hs.
  - intros [Hne Hk]. right. left. exists (q, b), k. split; [by apply send_elem|done].
Qed.
Lemma sorted_block p (f : spair -> Z -> act) l : NoDup l -> (forall s s' k k', s ∈ l -> s' ∈ l -> 0 <= k < 5 -> 0 <= k' < 5 -> sle s s' -> s <> s' \/ k < k' -> key n p (f s k) < key n p (f s' k')) -> inc n p (concat ((fun s => parts (f s)) <$> merge_sort sle l)).
Proof.
  intros Hd Hf. assert (Hm : forall s, s ∈ merge_sort sle l <-> s ∈ l) by (intros s; by rewrite merge_sort_Permutation). apply SSconcat.
  - intros s Hs. apply Hm in Hs. unfold parts. repeat constructor; cbn; try (apply Hf; [done|done|lia|lia|right; split; [done|]; by destruct s.2|right; lia]).
  - eapply SSmono; [|apply SSnodup; [apply (StronglySorted_merge_sort sle)|by rewrite merge_sort_Permutation]].
    intros s s' Hs Hs' [Hle Hne] a b (k & Hk & ->)%parts_elem (k' & Hk' & ->)%parts_elem. apply Hm in Hs, Hs'. apply Hf; auto.
Qed.
Lemma sle_ne (s s' : spair) : sle s s' -> s <> s' -> s.1 < s'.1 \/ s.1 = s'.1 /\ s.2 = false /\ s'.2 = true.
Proof. destruct s as [a b], s' as [a' b']. unfold sle. cbn [fst snd]. intros [H|[-> H]] Hne; [by left|right]. destruct b, b'; cbn in *; try done. Qed.
Lemma exch_inc p : 0 <= p < n -> inc n p (exchangeMeshes n p todo).
Proof using All.
  intros Hp.
  assert (HR : forall first, inc n p (concat ((fun s : spair => parts (Rcv s.1 s.2)) <$> merge_sort sle (toReceive first p (at_ todo p))))).
  { intros first. apply (sorted_block p (fun s => Rcv s.1 s.2)); [apply toReceive_nodup|]. intros [q b] [q' b'] k k' Hs Hs' Hk Hk' Hle Hor. cbn [key fst snd]. apply K_lt; [done..|].
    apply toReceive_elem in Hs as [Hs _], Hs' as [Hs' _]. apply needs_range in Hs, Hs'. destruct (decide ((q, b) = (q', b'))) as [[= -> ->]|Hne].
    - destruct Hor as [?|?]; [done|]. right. split; [done|]. right. split; [done|]. by right.
    - apply sle_ne in Hle as [?|(E & E1 & E2)]; [| |done]; cbn [fst snd] in *; [by left|]. right. split; [done|]. right. split; [done|]. by left. }
  assert (HS : inc n p (concat ((fun s : spair => parts (Snd s.1 s.2)) <$> merge_sort sle (procsToSendMesh n p todo)))).
  { apply (sorted_block p (fun s => Snd s.1 s.2)); [apply send_nodup|]. intros [q b] [q' b'] k k' Hs Hs' Hk Hk' Hle Hor. cbn [key fst snd].
    apply send_elem, needs_range in Hs, Hs'. apply K_lt; [lia..|]. right. split; [done|]. destruct (decide ((q, b) = (q', b'))) as [[= -> ->]|Hne].
    - destruct Hor as [?|?]; [done|]. right. split; [done|]. by right.
    - apply sle_ne in Hle as [?|(E & E1 & E2)]; [| |done]; cbn [fst snd] in *; [by left|]. right. split; [done|]. by left. }
  unfold exchangeMeshes. apply SSapp; [apply HR| |].
  - apply SSapp; [exact HS|apply HR|]. intros a a' Ha Ha'. apply (block_elem (fun s => Snd s.1 s.2)) in Ha as ([q b] & k & Hs & Hk & ->). apply (block_elem (fun s => Rcv s.1 s.2)) in Ha' as ([q' b'] & k' & Hs' & Hk' & ->).
    apply send_elem, needs_range in Hs. apply toReceive_elem in Hs' as [Hs' Hlt]. apply needs_range in Hs'. cbn [key fst snd]. apply K_lt; [lia..|]. left. lia.
  - intros a a' Ha Ha'. apply (block_elem (fun s => Rcv s.1 s.2)) in Ha as ([q b] & k & Hs & Hk & ->). apply toReceive_elem in Hs as [Hs Hlt]. apply needs_range in Hs. cbn [fst snd]. apply elem_of_app in Ha' as [Ha'|Ha'].
    + apply (block_elem (fun s => Snd s.1 s.2)) in Ha' as ([q' b'] & k' & Hs' & Hk' & ->). apply send_elem, needs_range in Hs'. cbn [key fst snd]. apply K_lt; [lia..|]. left. lia.
    + apply (block_elem (fun s => Rcv s.1 s.2)) in Ha' as ([q' b'] & k' & Hs' & Hk' & ->). apply toReceive_elem in Hs' as [Hs' Hlt']. apply needs_range in Hs'. cbn [key fst snd]. apply K_lt; [lia..|]. left. lia.
Qed.
Definition W0 : world := start n (fun p => exchangeMeshes n p todo).
Lemma prog0 p : 0 <= p < n -> prog W0 p = exchangeMeshes n p todo.
Proof. intros H. cbn. by replace ((0 <=? p) && (p <? n)) with true by lia. Qed.
Lemma prog0_out p : ~ 0 <= p < n -> prog W0 p = [].
Proof. intros H. cbn. by replace ((0 <=? p) && (p <? n)) with false by lia. Qed.
Lemma prog0_rcv p q b k : Rcv q b k ∈ prog W0 p <-> needs todo p q b /\ 0 <= k < 5.
Proof using All.
  destruct (decide (0 <= p < n)) as [Hp|Hp]; [rewrite prog0 by done; apply exch_rcv|]. rewrite prog0_out by done. split; [by intros ?%elem_of_nil|]. intros [H%needs_range _]. lia.
Qed.
Lemma prog0_snd p q b k : Snd q b k ∈ prog W0 p <-> needs todo q p b /\ 0 <= k < 5.
Proof using All.
  destruct (decide (0 <= p < n)) as [Hp|Hp]; [rewrite prog0 by done; apply exch_snd|]. rewrite prog0_out by done. split; [by intros ?%elem_of_nil|]. intros [H%needs_range _]. lia.
Qed.
Lemma legal0 : legal n (fun p => exchangeMeshes n p todo) W0.
Proof using All.
  assert (Hinc : forall p, inc n p (prog W0 p)). { intros p. destruct (decide (0 <= p < n)); [rewrite prog0 by done; by apply exch_inc|rewrite prog0_out by done; constructor]. }
  split; [exact Hinc|]. split; [|split; [|split]].
  - intros p [q b k|q b k] Ha; [apply prog0_snd in Ha as [Ha%needs_range Hk]|apply prog0_rcv in Ha as [Ha%needs_range Hk]]; cbn [fits]; lia.
  - intros q r. cbn [wire W0 start app]. destruct (decide (0 <= r < n)) as [Hr|Hr].
    2: { rewrite prog0_out by done. cbn. destruct (omap (snd_ r) (prog W0 q)) as [|[b k] l] eqn:E; [done|]. exfalso. assert (Hin : Snd r b k ∈ prog W0 q) by (apply snd_elem; rewrite E; left). apply prog0_snd in Hin as [Hin%needs_range _]. lia. }
    apply (SSuniq (fun x => K n q r x.1 x.2)).
    + eapply SSomap; [|apply Hinc]. intros [|q1 b1 k1] [|q2 b2 k2] x y _ _ Hlt X Y; cbn in X, Y; try done. destruct (Z.eqb_spec q1 q) as [->|]; [|done]. destruct (Z.eqb_spec q2 q) as [->|]; [|done]. injection X as <-. injection Y as <-. done.
    + eapply SSomap; [|apply Hinc]. intros [q1 b1 k1|] [q2 b2 k2|] x y _ _ Hlt X Y; cbn in X, Y; try done. destruct (Z.eqb_spec q1 r) as [->|]; [|done]. destruct (Z.eqb_spec q2 r) as [->|]; [|done]. injection X as <-. injection Y as <-. done.
    + intros [b k]. rewrite rcv_elem, snd_elem, prog0_rcv, prog0_snd. done.
  - by intros p e ?%elem_of_nil.
  - intros p Hp. rewrite prog0 by done. done.
Qed.
Theorem exchange_ok m s : steps m (start n (fun p => exchangeMeshes n p todo)) s ->
  (m <= sum_list ((fun p => length (exchangeMeshes n p todo)) <$> seqZ 0 n))%nat /\ (finished s \/ exists s', move s s') /\
  (forall p e, e ∈ got s p -> e.2 = (e.1.1.2, e.1.2)) /\
  (finished s -> forall p, 0 <= p < n -> NoDup (got s p).*1 /\ forall q b k, (q, b, k) ∈ (got s p).*1 <-> needs todo p q b /\ 0 <= k < 5).
Proof using All.
  intros Hs. destruct (steps_ok n Hn (fun p => exchangeMeshes n p todo) _ _ _ Hs legal0) as [HL Hlen]. split; [|split; [|split]].
  - etransitivity; [|etransitivity; [exact Hlen|]]; [lia|]. unfold left_. apply Nat.eq_le_incl. f_equal. apply list_fmap_ext. intros i p Hp. apply elem_of_list_lookup_2, elem_of_seqZ in Hp. by rewrite prog0 by lia.
  - by eapply legal_move.
  - apply HL.
  - intros [Hf _] p Hp. destruct HL as (_ & _ & _ & _ & J5). specialize (J5 p Hp). rewrite Hf in J5. cbn in J5. rewrite app_nil_r in J5. rewrite J5. split.
    + pose proof (exch_inc p Hp) as Hi. apply (SSirr (fun x => K n x.1.1 p x.1.2 x.2)). eapply SSomap; [|exact Hi]. intros [|q1 b1 k1] [|q2 b2 k2] x y _ _ Hlt X Y; cbn in X, Y; try done. injection X as <-. injection Y as <-. done.
    + intros q b k. rewrite want_elem. apply exch_rcv.
Qed.
End Exchange.
