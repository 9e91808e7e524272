(** Sums, and the elimination of a column. *)
From Coq Require Import QArith Qcanon ZifyBool ZifyNat.
From Verif Require Import Base ArrLib RemapSpec RemapProofs RemapProofs4 IvModel IvSpec IvProofs IvProofs2.
Local Open Scope Z_scope.

Lemma sumZ_add n (f g : Z -> Qc) : sumZ n (fun i => f i + g i)%Qc = (sumZ n f + sumZ n g)%Qc.
Proof. apply sumQ_add. Qed.
Lemma sumZ_scale n (f : Z -> Qc) x : sumZ n (fun i => x * f i)%Qc = (x * sumZ n f)%Qc.
Proof. apply sumQ_scale. Qed.
Lemma sumZ_scale_r n (f : Z -> Qc) x : sumZ n (fun i => f i * x)%Qc = (sumZ n f * x)%Qc.
Proof. rewrite Qcmult_comm, <- sumZ_scale. apply sumZ_ext. intros i _. apply Qcmult_comm. Qed.
Lemma sumZ_0 n (f : Z -> Qc) : (forall i, 0 <= i < n -> f i = 0%Qc) -> sumZ n f = 0%Qc.
Proof. intros H. apply sumQ_zero. intros x Hx. apply elem_of_seqZ in Hx. apply H. lia. Qed.
Lemma sumZ_one n k (f : Z -> Qc) : 0 <= k < n -> (forall i, 0 <= i < n -> i <> k -> f i = 0%Qc) -> sumZ n f = f k.
Proof. intros Hk H. rewrite <- (sumZ_pick n k (f k) Hk). apply sumZ_ext. intros i Hi. destruct (Z.eqb_spec k i) as [->|N]; [done|]. apply H; [done|congruence]. Qed.
Lemma sumZ_exch n m (f : Z -> Z -> Qc) : sumZ n (fun i => sumZ m (fun j => f i j)) = sumZ m (fun j => sumZ n (fun i => f i j)).
Proof.
  unfold sumZ at 1 4. induction (seqZ 0 n) as [|x l IH]; cbn [map].
  - rewrite sumZ_0 by done. done.
  - rewrite sumQ_cons, IH. rewrite <- sumZ_add. apply sumZ_ext. intros j _. by rewrite sumQ_cons.
Qed.
Lemma sumQ_perm l l' : l ≡ₚ l' -> sumQ l = sumQ l'.
Proof. induction 1 as [|x l l' _ IH|x y l|l l' l'' _ IH1 _ IH2]; [done|by rewrite !sumQ_cons, IH|rewrite !sumQ_cons; ring|congruence]. Qed.
Definition swp (k l i : Z) : Z := if i =? k then l else if i =? l then k else i.
Lemma swp_swp k l i : swp k l (swp k l i) = i.
Proof. unfold swp. destruct (Z.eqb_spec i k) as [->|]; [rewrite Z.eqb_refl; destruct (Z.eqb_spec l k); congruence|]. destruct (Z.eqb_spec i l) as [->|]; [by rewrite Z.eqb_refl|]. destruct (Z.eqb_spec i k); [done|]. destruct (Z.eqb_spec i l); done. Qed.
Lemma swp_in n k l i : 0 <= k < n -> 0 <= l < n -> 0 <= i < n -> 0 <= swp k l i < n.
Proof. unfold swp. intros. destruct (i =? k), (i =? l); done. Qed.
Lemma sumZ_swp n k l (f : Z -> Qc) : 0 <= k < n -> 0 <= l < n -> sumZ n (fun i => f (swp k l i)) = sumZ n f.
Proof.
  intros Hk Hl. unfold sumZ. rewrite <- (map_map (swp k l) f). apply sumQ_perm. apply fmap_Permutation. apply NoDup_Permutation.
  - apply (NoDup_fmap_2_strong (swp k l)); [|apply NoDup_seqZ]. intros x y _ _ E. rewrite <- (swp_swp k l x), E. apply swp_swp.
  - apply NoDup_seqZ.
  - intros x. rewrite elem_of_seqZ. split.
    + intros H. apply (elem_of_list_fmap_2 (swp k l)) in H as (y & -> & Hy). apply elem_of_seqZ in Hy. pose proof (swp_in n k l y). lia.
    + intros H. apply (elem_of_list_fmap (swp k l)). exists (swp k l x). split; [by rewrite swp_swp|]. apply elem_of_seqZ. pose proof (swp_in n k l x). lia.
Qed.

Definition left_inv (n : Z) (B U : mat) : Prop := forall i j, 0 <= i < n -> 0 <= j < n -> sumZ n (fun p => B i p * U p j)%Qc = unit_mat i j.
(** The exchange of rows [k] and [l], then row [i] plus [m i] times row [k] for the rows after [k]. *)
Definition elim (n k l : Z) (m : Z -> Qc) (U U' : mat) : Prop := forall i j, 0 <= i < n -> 0 <= j < n -> U' i j = (U (swp k l i) j + (if (k <? i)%Z then m i * U l j else 0))%Qc.
(** The matrix without what is under the diagonal in the first [k] columns. *)
Definition up (k : Z) (M : mat) : mat := fun i j => if (j <? k) && (j <? i) then 0%Qc else M i j.

(** A left inverse of the first matrix gives one of the second, and conversely. *)
Lemma elim_forward n k l m U U' B : 0 <= k < n -> 0 <= l < n -> elim n k l m U U' -> left_inv n B U -> exists B', left_inv n B' U'.
Proof.
  intros Hk Hl HE HB. exists (fun i p => B i (swp k l p) + (if (p =? k)%Z then - sumZ n (fun q => if (k <? q)%Z then B i (swp k l q) * m q else 0) else 0))%Qc. intros i j Hi Hj. rewrite <- (HB i j Hi Hj).
  assert (EK : U' k j = U l j). { rewrite (HE k j Hk Hj). rewrite Z.ltb_irrefl. unfold swp. rewrite Z.eqb_refl. ring. }
  assert (EV : forall p, 0 <= p < n -> U (swp k l p) j = (U' p j - (if (k <? p)%Z then m p * U' k j else 0))%Qc). { intros p Hp. rewrite EK, (HE p j Hp Hj). destruct (k <? p); ring. }
  rewrite <- (sumZ_swp n k l (fun p => B i p * U p j)%Qc) by done.
  transitivity (sumZ n (fun p => (B i (swp k l p) * U' p j) + (if (p =? k)%Z then - sumZ n (fun q => if (k <? q)%Z then B i (swp k l q) * m q else 0) * U' k j else 0))%Qc).
  { apply sumZ_ext. intros p Hp. destruct (Z.eqb_spec p k) as [->|]; ring. }
  rewrite sumZ_add. rewrite (sumZ_one n k (fun p => if (p =? k)%Z then _ else 0%Qc)) by (try done; intros p _ N; by destruct (Z.eqb_spec p k)). rewrite Z.eqb_refl.
  transitivity (sumZ n (fun p => (B i (swp k l p) * U' p j) + (- U' k j) * (if (k <? p)%Z then B i (swp k l p) * m p else 0))%Qc).
  { rewrite sumZ_add, sumZ_scale. ring. }
  apply sumZ_ext. intros p Hp. rewrite (EV p Hp). destruct (k <? p); ring.
Qed.
Lemma elim_back n k l m U U' X : 0 <= k < n -> 0 <= l < n -> elim n k l m U U' -> left_inv n X U' ->
  left_inv n (fun i p => let s := swp k l p in if s =? k then X i k + sumZ n (fun q => if (k <? q)%Z then m q * X i q else 0) else X i s)%Qc U.
Proof.
  intros Hk Hl HE HX i j Hi Hj. rewrite <- (HX i j Hi Hj). cbn zeta.
  transitivity (sumZ n (fun p => (if (p =? k)%Z then X i k + sumZ n (fun q => if (k <? q)%Z then m q * X i q else 0) else X i p) * U (swp k l p) j)%Qc).
  { rewrite <- (sumZ_swp n k l (fun p => (if (p =? k)%Z then _ else _) * U (swp k l p) j)%Qc) by done. apply sumZ_ext. intros p _. by rewrite swp_swp. }
  transitivity (sumZ n (fun p => X i p * U (swp k l p) j + (if (p =? k)%Z then sumZ n (fun q => if (k <? q)%Z then m q * X i q else 0) * U l j else 0))%Qc).
  { apply sumZ_ext. intros p _. destruct (Z.eqb_spec p k) as [->|]; [|ring]. unfold swp at 1 2. rewrite Z.eqb_refl. ring. }
  rewrite sumZ_add. rewrite (sumZ_one n k (fun p => if (p =? k)%Z then _ else 0%Qc)) by (try done; intros p _ N; by destruct (Z.eqb_spec p k)). rewrite Z.eqb_refl.
  rewrite <- sumZ_scale_r, <- sumZ_add. apply sumZ_ext. intros p Hp. rewrite (HE p j Hp Hj). destruct (k <? p); ring.
Qed.

(** A matrix with a left inverse that is triangular with a diagonal in its first [k] columns has something else than zero in column [k] from row [k] on. *)
Lemma tri_solve n k U : 0 <= k <= n -> (forall i j, 0 <= j < k -> j < i < n -> U i j = 0%Qc) -> (forall j, 0 <= j < k -> U j j <> 0%Qc) ->
  forall c, exists y : Z -> Qc, (forall j, ~ 0 <= j < k -> y j = 0%Qc) /\ forall i, 0 <= i < k -> sumZ n (fun j => U i j * y j)%Qc = c i.
Proof.
  intros Hk. revert Hk. assert (K0 : 0 <= k \/ k < 0) by lia. destruct K0 as [K0|]; [|lia]. revert k K0. apply (natlike_ind (fun k => 0 <= k <= n -> (forall i j, 0 <= j < k -> j < i < n -> U i j = 0%Qc) -> (forall j, 0 <= j < k -> U j j <> 0%Qc) ->
    forall c, exists y : Z -> Qc, (forall j, ~ 0 <= j < k -> y j = 0%Qc) /\ forall i, 0 <= i < k -> sumZ n (fun j => U i j * y j)%Qc = c i)).
  - intros _ _ _ c. exists (fun _ => 0%Qc). split; [done|]. intros i Hi. lia.
  - intros k K0 IH Hk HT HD c. set (v := (c k / U k k)%Qc). destruct (IH ltac:(lia) ltac:(intros i j ? ?; apply HT; lia) ltac:(intros j ?; apply HD; lia) (fun i => c i - U i k * v)%Qc) as (y & Y1 & Y2).
    assert (EQ : forall i, 0 <= i < n -> sumZ n (fun j => U i j * (y j + (if (j =? k)%Z then v else 0)))%Qc = (sumZ n (fun j => U i j * y j) + U i k * v)%Qc).
    { intros i Hi. transitivity (sumZ n (fun j => U i j * y j + (if (j =? k)%Z then U i k * v else 0))%Qc); [apply sumZ_ext; intros j _; destruct (Z.eqb_spec j k) as [->|]; ring|].
      rewrite sumZ_add. f_equal. rewrite (sumZ_one n k (fun p => if (p =? k)%Z then _ else 0%Qc)) by (try lia; intros p _ N; by destruct (Z.eqb_spec p k)). by rewrite Z.eqb_refl. }
    exists (fun j => y j + (if (j =? k)%Z then v else 0))%Qc. split.
    + intros j Hj. rewrite (Y1 j) by lia. replace (j =? k) with false by lia. ring.
    + intros i Hi. rewrite EQ by lia. destruct (Z.eq_dec i k) as [->|N].
      * rewrite sumZ_0. { unfold v. field. apply HD. lia. } intros j Hj. destruct (Z.lt_ge_cases j k); [rewrite HT by lia; ring|rewrite Y1 by lia; ring].
      * rewrite Y2 by lia. ring.
Qed.
Lemma pivot_exists n k U B : 0 <= k < n -> (forall i j, 0 <= j < k -> j < i < n -> U i j = 0%Qc) -> (forall j, 0 <= j < k -> U j j <> 0%Qc) -> left_inv n B U ->
  ~ (forall i, k <= i < n -> U i k = 0%Qc).
Proof.
  intros Hk HT HD HB HZ. destruct (tri_solve n k U ltac:(lia) HT HD (fun i => - U i k)%Qc) as (y & Y1 & Y2).
  set (z := fun j => (y j + (if (j =? k)%Z then 1 else 0))%Qc).
  assert (Z0 : forall i, 0 <= i < n -> sumZ n (fun j => U i j * z j)%Qc = 0%Qc).
  { intros i Hi. transitivity (sumZ n (fun j => U i j * y j + (if (j =? k)%Z then U i k else 0))%Qc); [apply sumZ_ext; intros j _; unfold z; destruct (Z.eqb_spec j k) as [->|]; ring|].
    rewrite sumZ_add. rewrite (sumZ_one n k (fun p => if (p =? k)%Z then _ else 0%Qc)) by (try lia; intros p _ N; by destruct (Z.eqb_spec p k)). rewrite Z.eqb_refl.
    destruct (Z.lt_ge_cases i k); [rewrite Y2 by lia; ring|]. rewrite HZ by lia. rewrite sumZ_0; [ring|]. intros j Hj. destruct (Z.lt_ge_cases j k); [rewrite HT by lia; ring|rewrite Y1 by lia; ring]. }
  assert (E1 : sumZ n (fun j => unit_mat k j * z j)%Qc = 1%Qc).
  { rewrite (sumZ_one n k) by (first [done|intros j _ N; unfold unit_mat; destruct (Z.eqb_spec k j); [congruence|ring]]). unfold unit_mat, z. rewrite !Z.eqb_refl, Y1 by lia. ring. }
  assert (E2 : sumZ n (fun j => unit_mat k j * z j)%Qc = 0%Qc).
  { transitivity (sumZ n (fun j => sumZ n (fun p => B k p * U p j * z j))%Qc). { apply sumZ_ext. intros j Hj. rewrite <- (HB k j Hk Hj). by rewrite <- sumZ_scale_r. }
    rewrite sumZ_exch. apply sumZ_0. intros p Hp. transitivity (B k p * sumZ n (fun j => U p j * z j))%Qc; [rewrite <- sumZ_scale; apply sumZ_ext; intros j _; ring|]. rewrite Z0 by done. ring. }
  rewrite E1 in E2. discriminate E2.
Qed.
