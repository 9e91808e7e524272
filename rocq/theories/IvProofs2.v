(** The basic operations on columns. *)
From Coq Require Import QArith Qcanon Qcabs ZifyBool ZifyNat.
From Verif Require Import Base ArrLib RemapSpec IvModel IvSpec IvProofs.
Local Open Scope Z_scope.

Lemma qzero_spec x : reflect (x = 0%Qc) (qzero x).
Proof. unfold qzero. destruct (Qc_eq_bool x 0) eqn:E; constructor; [by apply Qc_eq_bool_correct|]. intros ->. by vm_compute in E. Qed.
Lemma divq_ok x y : y <> 0%Qc -> divq x y = Ok (x / y)%Qc.
Proof. intros H. unfold divq. by destruct (qzero_spec y). Qed.

Ltac beq := repeat match goal with |- context [?a =? ?b] => destruct (Z.eqb_spec a b) | |- context [?a <? ?b] => destruct (Z.ltb_spec a b) | |- context [?a <=? ?b] => destruct (Z.leb_spec a b) end; cbn [andb orb negb].

Lemma dscal_ok n cnt sa a M r c x : rep n a M -> 0 <= r -> r + cnt <= n -> 0 <= c < n -> x = r + c * n ->
  exists a', dscal cnt sa a x = Ok a' /\ rep n a' (fun i j => if (j =? c) && (r <=? i) && (i <? r + cnt) then (sa * M i j)%Qc else M i j).
Proof.
  intros HM Hr Hc Hcc ->. unfold dscal. destruct (Z.leb_spec cnt 0) as [L|L].
  { exists a. split; [done|]. apply (rep_ext n a M); [done|]. intros i j _ _. replace ((j =? c) && (r <=? i) && (i <? r + cnt)) with false by lia. done. }
  rewrite (unroll5 (fun i a => let* v := rd a (r + c * n + i) in wr a (r + c * n + i) (sa * v)%Qc)) by lia.
  apply wp_ok. apply (wp_forZ (fun q a' => rep n a' (fun i j => if (j =? c) && (r <=? i) && (i <? r + q) then (sa * M i j)%Qc else M i j))); [lia| | |done].
  - apply (rep_ext n a M); [done|]. intros i j _ _. replace ((j =? c) && (r <=? i) && (i <? r + 0)) with false by lia. done.
  - intros q b Hq HR. rewrite (rep_rd n b _ (r + q) c _ HR) by lia. cbn [bind]. rewrite Z.ltb_irrefl, andb_false_r. destruct (rep_wr n b _ (r + q) c (r + c * n + q) (sa * M (r + q)%Z c)%Qc HR) as (b' & -> & HR'); [lia..|]. cbn [wp].
    apply (rep_ext _ _ _ _ HR'). intros i j _ _. unfold upd.
    destruct (Z.eqb_spec i (r + q)) as [->|N]; cbn [andb].
    + destruct (Z.eqb_spec j c) as [->|N2]; cbn [andb]; [|done]. replace ((r <=? r + q) && (r + q <? r + (q + 1))) with true by lia. done.
    + replace (i <? r + (q + 1)) with (i <? r + q) by lia. done.
Qed.
Lemma daxpy_ok n cnt t a M r c c' x y : rep n a M -> 0 <= r -> r + cnt <= n -> 0 <= c < n -> 0 <= c' < n -> c <> c' -> x = r + c * n -> y = r + c' * n ->
  exists a', daxpy cnt t a x y = Ok a' /\ rep n a' (fun i j => if (j =? c') && (r <=? i) && (i <? r + cnt) then (M i j + t * M i c)%Qc else M i j).
Proof.
  intros HM Hr Hc Hcc Hcc' N -> ->. unfold daxpy. destruct (Z.leb_spec cnt 0) as [L|L].
  { exists a. split; [done|]. apply (rep_ext n a M); [done|]. intros i j _ _. replace ((j =? c') && (r <=? i) && (i <? r + cnt)) with false by lia. done. }
  destruct (qzero_spec t) as [->|Nt].
  { exists a. split; [done|]. apply (rep_ext n a M); [done|]. intros i j _ _. destruct (_ && _); [ring|done]. }
  rewrite (unroll4 (fun i a => let* v := rd a (r + c' * n + i) in let* w := rd a (r + c * n + i) in wr a (r + c' * n + i) (v + t * w)%Qc)) by lia.
  apply wp_ok. apply (wp_forZ (fun q a' => rep n a' (fun i j => if (j =? c') && (r <=? i) && (i <? r + q) then (M i j + t * M i c)%Qc else M i j))); [lia| | |done].
  - apply (rep_ext n a M); [done|]. intros i j _ _. replace ((j =? c') && (r <=? i) && (i <? r + 0)) with false by lia. done.
  - intros q b Hq HR. rewrite (rep_rd n b _ (r + q) c' _ HR) by lia. cbn [bind]. rewrite (rep_rd n b _ (r + q) c _ HR) by lia. cbn [bind]. rewrite Z.ltb_irrefl, !andb_false_r.
    destruct (rep_wr n b _ (r + q) c' (r + c' * n + q) (M (r + q)%Z c' + t * M (r + q)%Z c)%Qc HR) as (b' & -> & HR'); [lia..|]. cbn [wp].
    apply (rep_ext _ _ _ _ HR'). intros i j _ _. unfold upd. destruct (Z.eqb_spec i (r + q)) as [->|N1]; cbn [andb].
    + destruct (Z.eqb_spec j c') as [->|N2]; cbn [andb]; [|done]. replace ((r <=? r + q) && (r + q <? r + (q + 1))) with true by lia. done.
    + replace (i <? r + (q + 1)) with (i <? r + q) by lia. done.
Qed.
Lemma dswap_ok n a M c c' x y : rep n a M -> 0 <= n -> 0 <= c < n -> 0 <= c' < n -> x = c * n -> y = c' * n ->
  exists a', dswap n a x y = Ok a' /\ rep n a' (fun i j => if j =? c then M i c' else if j =? c' then M i c else M i j).
Proof.
  intros HM Hn Hcc Hcc' -> ->. unfold dswap. destruct (Z.leb_spec n 0) as [L|L]; [lia|].
  rewrite (unroll3 (fun i a => let* t := rd a (c * n + i) in let* v := rd a (c' * n + i) in let* a := wr a (c * n + i) v in wr a (c' * n + i) t)) by lia.
  apply wp_ok. apply (wp_forZ (fun q a' => rep n a' (fun i j => if i <? q then (if j =? c then M i c' else if j =? c' then M i c else M i j) else M i j))); [lia| | |].
  - apply (rep_ext n a M); [done|]. intros i j Hi _. replace (i <? 0) with false by lia. done.
  - intros q b Hq HR. rewrite (rep_rd n b _ q c _ HR) by lia. cbn [bind]. rewrite (rep_rd n b _ q c' _ HR) by lia. cbn [bind]. rewrite Z.ltb_irrefl.
    destruct (rep_wr n b _ q c (c * n + q) (M q c') HR) as (b' & -> & HR'); [lia..|]. cbn [bind]. destruct (rep_wr n b' _ q c' (c' * n + q) (M q c) HR') as (b2 & -> & HR2); [lia..|]. cbn [wp].
    apply (rep_ext _ _ _ _ HR2). intros i j _ _. unfold upd. destruct (Z.eqb_spec i q) as [->|N1]; cbn [andb].
    + replace (q <? q + 1) with true by lia. rewrite Z.ltb_irrefl. destruct (Z.eqb_spec j c') as [->|]; cbn [andb]; [destruct (Z.eqb_spec c' c) as [->|]; done|]. destruct (Z.eqb_spec j c); done.
    + replace (i <? q + 1) with (i <? q) by lia. done.
  - intros b HR. apply (rep_ext _ _ _ _ HR). intros i j Hi _. by replace (i <? n) with true by lia.
Qed.
Lemma abs_qcabs x : r8_abs x = [x]%Qc.
Proof.
  unfold r8_abs. destruct (Qle_bool 0 x) eqn:E.
  - apply Qle_bool_iff in E. symmetry. by apply Qcabs_pos.
  - symmetry. apply Qcabs_neg. unfold Qcle. assert (N : ~ (0 <= x)%Q) by (intros H; apply Qle_bool_iff in H; congruence). apply Qnot_le_lt in N. by apply Qlt_le_weak.
Qed.
Lemma qlt_spec x y : reflect (x < y)%Qc (qlt x y).
Proof.
  unfold qlt. destruct (Qle_bool y x) eqn:E; cbn [negb]; constructor.
  - apply Qle_bool_iff in E. unfold Qclt. intros H. by apply (Qlt_not_le _ _ H).
  - unfold Qclt. apply Qnot_le_lt. intros H. apply Qle_bool_iff in H. congruence.
Qed.
Lemma abs_zero x : r8_abs x = 0%Qc -> x = 0%Qc.
Proof. unfold r8_abs. destruct (Qle_bool 0 x); [done|]. intros H. rewrite <- (Qcopp_involutive x), H. done. Qed.
Lemma idamax_ok n a M k : rep n a M -> 0 <= k < n -> exists l, idamax (n - k) a (k + k * n) = Ok l /\ 0 <= l < n - k /\ ((exists i, k <= i < n /\ M i k <> 0%Qc) -> M (l + k) k <> 0%Qc).
Proof.
  intros HM Hk. unfold idamax. replace (n - k <? 1) with false by lia. destruct (Z.eqb_spec (n - k) 1) as [E|E].
  { exists 0. split; [done|]. split; [lia|]. intros (i & Hi & H). by replace (0 + k) with i by lia. }
  rewrite (rep_rd n a M k k _ HM) by lia. cbn [bind].
  destruct (wp_ok (forZ 1 (n - k) (fun i '(value, dmax) => let* v := rd a (k + k * n + i) in Ok (if qlt dmax (r8_abs v) then (i, r8_abs v) else (value, dmax))) (0, r8_abs (M k k)))
    (fun '(value, dmax) => 0 <= value < n - k /\ dmax = r8_abs (M (value + k) k) /\ forall q, 0 <= q < n - k -> (r8_abs (M (q + k)%Z k) <= dmax)%Qc)) as ((v, dm) & -> & H1 & H2 & H3).
  - apply (wp_forZ (fun i '(value, dmax) => 0 <= value < n - k /\ dmax = r8_abs (M (value + k) k) /\ forall q, 0 <= q < i -> (r8_abs (M (q + k)%Z k) <= dmax)%Qc)); [lia| | |done].
    + split; [lia|]. split; [done|]. intros q Hq. replace (q + k) with k by lia. apply Qcle_refl.
    + intros i (v, dm) Hi (H1 & H2 & H3). rewrite (rep_rd n a M (i + k) k _ HM) by lia. cbn [bind wp]. destruct (qlt_spec dm (r8_abs (M (i + k) k))) as [L|L].
      * split; [lia|]. split; [done|]. intros q Hq. destruct (Z.eq_dec q i) as [->|]; [apply Qcle_refl|]. apply Qclt_le_weak. eapply Qcle_lt_trans; [apply H3; lia|done].
      * split; [done|]. split; [done|]. intros q Hq. destruct (Z.eq_dec q i) as [->|]; [by apply Qcnot_lt_le|apply H3; lia].
  - exists v. split; [done|]. split; [done|]. intros (i & Hi & Hne) Hz. apply Hne. apply abs_zero. specialize (H3 (i - k) ltac:(lia)). replace (i - k + k) with i in H3 by lia. rewrite H2, Hz in H3. change (r8_abs 0) with 0%Qc in H3.
    apply Qcle_antisym; [done|]. rewrite abs_qcabs. apply Qcabs_nonneg.
Qed.
