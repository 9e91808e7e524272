From Coq Require Import QArith Qcanon ZifyBool ZifyNat.
From Verif Require Import Base ArrLib RemapSpec RemapProofs RemapProofs4 IvModel IvSpec.
Local Open Scope Z_scope.

(** * Loops *)
Lemma forZ_split {St} lo mid hi (body : Z -> St -> res St) s : lo <= mid <= hi -> forZ lo hi body s = (let* s := forZ lo mid body s in forZ mid hi body s).
Proof.
  intros H. unfold forZ. replace (hi - lo) with ((mid - lo) + (hi - mid)) by lia. rewrite seqZ_app by lia. rewrite foldM_app. replace (lo + (mid - lo)) with mid by lia. done.
Qed.
Lemma forZ_blocks_eq {St} c m q (body : Z -> St -> res St) s : 0 <= c -> 0 <= q -> forZ 0 q (fun b => forZ (m + c * b) (m + c * b + c) body) s = forZ m (m + c * q) body s.
Proof.
  intros Hc Hq. revert s. apply (natlike_ind (fun q => forall s, forZ 0 q (fun b => forZ (m + c * b) (m + c * b + c) body) s = forZ m (m + c * q) body s)); [| |done].
  - intros s. rewrite !forZ_empty by lia. done.
  - intros x Hx IH s. rewrite (forZ_split 0 x (Z.succ x)) by lia. rewrite (forZ_split m (m + c * x) (m + c * Z.succ x)) by nia. rewrite IH. destruct (forZ m (m + c * x) body s) as [s'| | |]; try done. cbn [bind].
    rewrite forZ_step by lia. replace (m + c * Z.succ x) with (m + c * x + c) by lia. destruct (forZ (m + c * x) (m + c * x + c) body s'); try done. cbn [bind]. rewrite forZ_empty by lia. done.
Qed.
Lemma bind_ret {A} (m : res A) : (let* x := m in Ok x) = m.
Proof. by destruct m. Qed.
Lemma forZ_body {St} lo hi (f g : Z -> St -> res St) s : (forall i s, f i s = g i s) -> forZ lo hi f s = forZ lo hi g s.
Proof. intros H. unfold forZ. revert s. induction (seqZ lo (hi - lo)) as [|x l IH]; intros s; [done|]. cbn [foldM]. rewrite H. destruct (g x s); try done. cbn [bind]. apply IH. Qed.
Lemma rem_quot n c : 0 < c -> 0 <= n -> 0 <= Z.rem n c /\ 0 <= Z.quot (n - Z.rem n c) c /\ Z.rem n c + c * Z.quot (n - Z.rem n c) c = n.
Proof.
  intros Hc Hn. pose proof (Z.rem_bound_pos n c ltac:(lia) ltac:(lia)). pose proof (Z.quot_rem n c ltac:(lia)) as E. replace (n - Z.rem n c) with (c * Z.quot n c) by lia. rewrite (Z.mul_comm c (Z.quot n c)), Z.quot_mul by lia. pose proof (Z.quot_pos n c ltac:(lia) ltac:(lia)). lia.
Qed.
Lemma unroll5 {St} (step : Z -> St -> res St) n s : 0 <= n -> (let m := Z.rem n 5 in let* a := forZ 0 m step s in
  forZ 0 (Z.quot (n - m) 5) (fun b a => let i := m + 5 * b in let* a := step i a in let* a := step (i + 1) a in let* a := step (i + 2) a in let* a := step (i + 3) a in step (i + 4) a) a) = forZ 0 n step s.
Proof.
  intros Hn. cbn zeta. destruct (rem_quot n 5 ltac:(lia) Hn) as (H1 & H2 & H3). set (r := Z.rem n 5) in *. set (q := Z.quot (n - r) 5) in *. clearbody q. clearbody r. subst n. rewrite (forZ_split 0 r (r + 5 * q)) by lia. destruct (forZ 0 r step s) as [a| | |]; try done. cbn [bind].  rewrite <- forZ_blocks_eq by lia. apply forZ_body. intros i t.
  set (x := r + 5 * i). rewrite forZ_step by lia. destruct (step x t) as [t1| | |]; try done. cbn [bind]. rewrite forZ_step by lia. destruct (step (x + 1) t1) as [t2| | |]; try done. cbn [bind]. rewrite forZ_step by lia. replace (x + 1 + 1) with (x + 2) by lia. destruct (step (x + 2) t2) as [t3| | |]; try done. cbn [bind].
  rewrite forZ_step by lia. replace (x + 2 + 1) with (x + 3) by lia. destruct (step (x + 3) t3) as [t4| | |]; try done. cbn [bind]. rewrite forZ_step by lia. replace (x + 3 + 1) with (x + 4) by lia. destruct (step (x + 4) t4) as [t5| | |]; try done. cbn [bind]. rewrite forZ_empty by lia. done.
Qed.
Lemma unroll4 {St} (step : Z -> St -> res St) n s : 0 <= n -> (let m := Z.rem n 4 in let* a := forZ 0 m step s in
  forZ 0 (Z.quot (n - m) 4) (fun b a => let i := m + 4 * b in let* a := step i a in let* a := step (i + 1) a in let* a := step (i + 2) a in step (i + 3) a) a) = forZ 0 n step s.
Proof.
  intros Hn. cbn zeta. destruct (rem_quot n 4 ltac:(lia) Hn) as (H1 & H2 & H3). set (r := Z.rem n 4) in *. set (q := Z.quot (n - r) 4) in *. clearbody q. clearbody r. subst n. rewrite (forZ_split 0 r (r + 4 * q)) by lia. destruct (forZ 0 r step s) as [a| | |]; try done. cbn [bind].  rewrite <- forZ_blocks_eq by lia. apply forZ_body. intros i t.
  set (x := r + 4 * i). rewrite forZ_step by lia. destruct (step x t) as [t1| | |]; try done. cbn [bind]. rewrite forZ_step by lia. destruct (step (x + 1) t1) as [t2| | |]; try done. cbn [bind]. rewrite forZ_step by lia. replace (x + 1 + 1) with (x + 2) by lia. destruct (step (x + 2) t2) as [t3| | |]; try done. cbn [bind].
  rewrite forZ_step by lia. replace (x + 2 + 1) with (x + 3) by lia. destruct (step (x + 3) t3) as [t4| | |]; try done. cbn [bind]. rewrite forZ_empty by lia. done.
Qed.
Lemma unroll3 {St} (step : Z -> St -> res St) n s : 0 <= n -> (let m := Z.rem n 3 in let* a := forZ 0 m step s in
  forZ 0 (Z.quot (n - m) 3) (fun b a => let i := m + 3 * b in let* a := step i a in let* a := step (i + 1) a in step (i + 2) a) a) = forZ 0 n step s.
Proof.
  intros Hn. cbn zeta. destruct (rem_quot n 3 ltac:(lia) Hn) as (H1 & H2 & H3). set (r := Z.rem n 3) in *. set (q := Z.quot (n - r) 3) in *. clearbody q. clearbody r. subst n. rewrite (forZ_split 0 r (r + 3 * q)) by lia. destruct (forZ 0 r step s) as [a| | |]; try done. cbn [bind].  rewrite <- forZ_blocks_eq by lia. apply forZ_body. intros i t.
  set (x := r + 3 * i). rewrite forZ_step by lia. destruct (step x t) as [t1| | |]; try done. cbn [bind]. rewrite forZ_step by lia. destruct (step (x + 1) t1) as [t2| | |]; try done. cbn [bind]. rewrite forZ_step by lia. replace (x + 1 + 1) with (x + 2) by lia. destruct (step (x + 2) t2) as [t3| | |]; try done. cbn [bind]. rewrite forZ_empty by lia. done.
Qed.

(** * Matrices in arrays: row [i] of column [j] is at i + j * n *)
Notation mat := (Z -> Z -> Qc).
Definition rep (n : Z) (a : list Qc) (M : mat) : Prop := zlen a = n * n /\ forall i j, 0 <= i < n -> 0 <= j < n -> a @ (i + j * n) = Some (M i j).
Definition upd (M : mat) (i j : Z) (v : Qc) : mat := fun i' j' => if (i' =? i) && (j' =? j) then v else M i' j'.
Lemma rep_ext n a M M' : rep n a M -> (forall i j, 0 <= i < n -> 0 <= j < n -> M i j = M' i j) -> rep n a M'.
Proof. intros [H1 H2] H. split; [done|]. intros i j Hi Hj. rewrite H2 by done. f_equal. by apply H. Qed.
Lemma idx_in n i j : 0 <= i < n -> 0 <= j < n -> 0 <= i + j * n < n * n.
Proof. intros. nia. Qed.
Lemma idx_inj n i j i' j' : 0 <= i < n -> 0 <= i' < n -> i + j * n = i' + j' * n -> i = i' /\ j = j'.
Proof. intros H1 H2 E. assert (j = j') by (destruct (Z.lt_trichotomy j j') as [|[|]]; [nia|done|nia]). subst. lia. Qed.
Lemma rep_rd n a M i j p : rep n a M -> 0 <= i < n -> 0 <= j < n -> p = i + j * n -> rd a p = Ok (M i j).
Proof. intros [_ H] Hi Hj ->. apply rd_ok. by apply H. Qed.
Lemma rep_wr n a M i j p v : rep n a M -> 0 <= i < n -> 0 <= j < n -> p = i + j * n -> exists a', wr a p v = Ok a' /\ rep n a' (upd M i j v).
Proof.
  intros [H1 H2] Hi Hj ->. pose proof (idx_in n i j Hi Hj). rewrite wr_ok by lia. eexists. split; [done|]. split; [by rewrite zlen_zset|]. intros i' j' Hi' Hj'. unfold upd. rewrite zlook_zset by lia.
  destruct (Z.eqb_spec (i' + j' * n) (i + j * n)) as [E|E].
  - apply idx_inj in E as [-> ->]; try done. by rewrite !Z.eqb_refl.
  - rewrite H2 by done. destruct (Z.eqb_spec i' i) as [->|]; [|done]. destruct (Z.eqb_spec j' j) as [->|]; done.
Qed.
