(** The factorisation. *)
From Coq Require Import QArith Qcanon ZifyBool ZifyNat.
From Verif Require Import Base ArrLib RemapSpec RemapProofs4 IvModel IvSpec IvProofs IvProofs2 IvProofs3.
Local Open Scope Z_scope.

(** One column, once the pivot is known. *)
Lemma column_ok n a M k l (K : list Qc -> res (list Qc * list (option Z) * Z)) : rep n a M -> 0 <= k < n - 1 -> k <= l < n -> M l k <> 0%Qc ->
  exists a' M', (let* a := (if l =? k then Ok a else let* t := rd a (l + k * n) in let* v := rd a (k + k * n) in let* a := wr a (l + k * n) v in wr a (k + k * n) t) in
    let* d := rd a (k + k * n) in
    let* t := divq (- 1)%Qc d in
    let* a := dscal (n - k - 1) t a (k + 1 + k * n) in
    let* a := forZ (k + 1) n (fun j a =>
      let* t := rd a (l + j * n) in
      let* a := (if l =? k then Ok a else let* v := rd a (k + j * n) in let* a := wr a (l + j * n) v in wr a (k + j * n) t) in
      daxpy (n - k - 1) t a (k + 1 + k * n) (k + 1 + j * n)) a in K a) = K a' /\ rep n a' M' /\
    (forall i j, j < k -> M' i j = M i j) /\ M' k k = M l k /\ elim n k l (fun i => M' i k) (up k M) (up (k + 1) M').
Proof.
  intros HM Hk Hl Hne.
  assert (S1 : exists a1, (if l =? k then Ok a else let* t := rd a (l + k * n) in let* v := rd a (k + k * n) in let* a := wr a (l + k * n) v in wr a (k + k * n) t) = Ok a1 /\ rep n a1 (fun i j => if j =? k then M (swp k l i) k else M i j)).
  { destruct (Z.eqb_spec l k) as [->|N].
    - exists a. split; [done|]. apply (rep_ext n a M); [done|]. intros i j _ _. unfold swp. destruct (Z.eqb_spec j k) as [->|]; [|done]. destruct (Z.eqb_spec i k) as [->|]; [done|]. done.
    - rewrite (rep_rd n a M l k _ HM) by lia. cbn [bind]. rewrite (rep_rd n a M k k _ HM) by lia. cbn [bind]. destruct (rep_wr n a M l k (l + k * n) (M k k) HM) as (b & -> & HR); [lia..|]. cbn [bind].
      destruct (rep_wr n b _ k k (k + k * n) (M l k) HR) as (b2 & -> & HR2); [lia..|]. exists b2. split; [done|]. apply (rep_ext _ _ _ _ HR2). intros i j _ _. unfold upd, swp.
      destruct (Z.eqb_spec j k) as [->|]; [|by rewrite !andb_false_r]. rewrite !andb_true_r. destruct (Z.eqb_spec i k) as [->|]; [done|]. destruct (Z.eqb_spec i l) as [->|]; done. }
  destruct S1 as (a1 & -> & R1). cbn [bind]. rewrite (rep_rd n a1 _ k k _ R1) by lia. cbn [bind]. rewrite Z.eqb_refl. assert (Ek : swp k l k = l) by (unfold swp; by rewrite Z.eqb_refl). rewrite Ek, divq_ok by done. cbn [bind].
  destruct (dscal_ok n (n - k - 1) (-1 / M l k)%Qc a1 _ (k + 1) k (k + 1 + k * n) R1) as (a2 & -> & R2); [lia..|]. cbn [bind].
  set (t0 := (-1 / M l k)%Qc) in *.
  set (M2 := fun i j => if (j =? k) then (if k <? i then (t0 * M (swp k l i) k)%Qc else M (swp k l i) k) else M i j).
  assert (R2' : rep n a2 M2). { apply (rep_ext _ _ _ _ R2). intros i j Hi Hj. unfold M2. destruct (Z.eqb_spec j k) as [->|]; cbn [andb]; [|done]. destruct (Z.ltb_spec k i); [by replace ((k + 1 <=? i) && (i <? k + 1 + (n - k - 1))) with true by lia|by replace ((k + 1 <=? i) && (i <? k + 1 + (n - k - 1))) with false by lia]. }
  set (M' := fun i j => if k <? j then (M (swp k l i) j + (if (k <? i)%Z then M2 i k * M l j else 0))%Qc else M2 i j).
  assert (W : wp (forZ (k + 1) n (fun j a =>
      let* t := rd a (l + j * n) in
      let* a := (if l =? k then Ok a else let* v := rd a (k + j * n) in let* a := wr a (l + j * n) v in wr a (k + j * n) t) in
      daxpy (n - k - 1) t a (k + 1 + k * n) (k + 1 + j * n)) a2) (fun a' => rep n a' M') False).
  { apply (wp_forZ (fun jj b => rep n b (fun i j => if j <? jj then M' i j else M2 i j))); [lia| | |].
    - apply (rep_ext n a2 M2); [done|]. intros i j _ _. destruct (Z.ltb_spec j (k + 1)); [|done]. unfold M'. by replace (k <? j) with false by lia.
    - intros jj b Hj HR. rewrite (rep_rd n b _ l jj _ HR) by lia. cbn [bind]. rewrite Z.ltb_irrefl. assert (EM : forall i, M2 i jj = M i jj) by (intros i; unfold M2; by replace (jj =? k) with false by lia). rewrite EM.
      assert (S3 : exists b1, (if l =? k then Ok b else let* v := rd b (k + jj * n) in let* a := wr b (l + jj * n) v in wr a (k + jj * n) (M l jj)) = Ok b1 /\ rep n b1 (fun i j => if j =? jj then M (swp k l i) jj else if j <? jj then M' i j else M2 i j)).
      { destruct (Z.eqb_spec l k) as [->|N].
        - exists b. split; [done|]. apply (rep_ext _ _ _ _ HR). intros i j _ _. destruct (Z.eqb_spec j jj) as [->|]; [|done]. rewrite Z.ltb_irrefl, EM. unfold swp. destruct (Z.eqb_spec i k) as [->|]; done.
        - rewrite (rep_rd n b _ k jj _ HR) by lia. cbn [bind]. rewrite Z.ltb_irrefl, EM. destruct (rep_wr n b _ l jj (l + jj * n) (M k jj) HR) as (b1 & -> & HR1); [lia..|]. cbn [bind].
          destruct (rep_wr n b1 _ k jj (k + jj * n) (M l jj) HR1) as (b2 & -> & HR2); [lia..|]. exists b2. split; [done|]. apply (rep_ext _ _ _ _ HR2). intros i j _ _. unfold upd, swp.
          destruct (Z.eqb_spec j jj) as [->|]; [|by rewrite !andb_false_r]. rewrite !andb_true_r, Z.ltb_irrefl, EM. destruct (Z.eqb_spec i k) as [->|]; [done|]. destruct (Z.eqb_spec i l) as [->|]; done. }
      destruct S3 as (b1 & -> & HR1). cbn [bind]. destruct (daxpy_ok n (n - k - 1) (M l jj) b1 _ (k + 1) k jj (k + 1 + k * n) (k + 1 + jj * n) HR1) as (b2 & -> & HR2); [lia..|]. cbn [wp].
      apply (rep_ext _ _ _ _ HR2). intros i j Hi Hjj. replace (k =? jj) with false by lia. replace (k <? jj) with true by lia. destruct (Z.eqb_spec j jj) as [->|N]; cbn [andb].
      + replace (jj <? jj + 1) with true by lia. unfold M' at 1 2. replace (k <? jj) with true by lia. rewrite Z.ltb_irrefl.
        destruct (Z.ltb_spec k i); [replace ((k + 1 <=? i) && (i <? k + 1 + (n - k - 1))) with true by lia|replace ((k + 1 <=? i) && (i <? k + 1 + (n - k - 1))) with false by lia; ring]. ring.
      + by replace (j <? jj + 1) with (j <? jj) by lia.
    - intros b HR. apply (rep_ext _ _ _ _ HR). intros i j _ Hj. by replace (j <? n) with true by lia. }
  apply wp_ok in W as (a' & -> & R3). cbn [bind]. exists a', M'. split; [done|]. split; [done|]. split; [|split].
  - intros i j Hj. unfold M', M2. replace (k <? j) with false by lia. by replace (j =? k) with false by lia.
  - unfold M', M2. rewrite Z.ltb_irrefl, Z.eqb_refl. by rewrite Ek.
  - assert (E0 : forall i, M' i k = if k <? i then (t0 * M (swp k l i) k)%Qc else M (swp k l i) k) by (intros i; unfold M', M2; by rewrite Z.ltb_irrefl, Z.eqb_refl).
    intros i j Hi Hj. unfold up at 1. destruct (Z.lt_trichotomy j k) as [L|[->|L]].
    + replace (j <? k + 1) with true by lia. cbn [andb]. unfold up. replace (j <? k) with true by lia. replace (j <? l) with true by lia. cbn [andb].
      destruct (Z.lt_ge_cases i k) as [Li|Li].
      * replace (k <? i) with false by lia. assert (swp k l i = i) as -> by (unfold swp; replace (i =? k) with false by lia; by replace (i =? l) with false by lia). unfold M', M2. replace (k <? j) with false by lia. replace (j =? k) with false by lia. destruct (j <? i); ring.
      * replace (j <? i) with true by lia. assert (j < swp k l i) by (unfold swp; destruct (i =? k), (i =? l); lia). replace (j <? swp k l i) with true by lia. destruct (k <? i); ring.
    + replace (k <? k + 1) with true by lia. cbn [andb]. unfold up. rewrite !Z.ltb_irrefl. cbn [andb]. rewrite E0. destruct (Z.ltb_spec k i); [unfold t0; field; done|ring].
    + replace (j <? k + 1) with false by lia. cbn [andb]. unfold up. replace (j <? k) with false by lia. cbn [andb]. unfold M' at 1. replace (k <? j) with true by lia. rewrite E0. unfold M2. rewrite Z.eqb_refl. done.
Qed.

Definition factored (n k : Z) (M0 : mat) (M : mat) (ipvt : list (option Z)) (Us : Z -> mat) : Prop :=
  zlen ipvt = n /\ (forall i j, 0 <= i < n -> 0 <= j < n -> Us 0 i j = M0 i j) /\ (forall i j, 0 <= i < n -> 0 <= j < n -> Us k i j = up k M i j) /\
  (forall q, 0 <= q < k -> M q q <> 0%Qc /\ exists l, ipvt @ q = Some (Some l) /\ q <= l < n /\ elim n q l (fun i => M i q) (Us q) (Us (q + 1))).
Lemma dgefa_ok n a M0 B : 0 < n -> rep n a M0 -> left_inv n B M0 ->
  exists a' ipvt M Us, dgefa a n n (malloc Z n) = Ok (a', ipvt, 0) /\ rep n a' M /\ factored n (n - 1) M0 M ipvt Us /\ M (n - 1) (n - 1) <> 0%Qc.
Proof.
  intros Hn HM HB.
  assert (PIV : forall k M B, 0 <= k < n -> (forall q, 0 <= q < k -> M q q <> 0%Qc) -> left_inv n B (up k M) -> ~ (forall i, k <= i < n -> M i k = 0%Qc)).
  { intros k M B' Hk HD HL HZ. apply (pivot_exists n k (up k M) B' Hk); try done.
    - intros i j Hj Hi. unfold up. by replace ((j <? k) && (j <? i)) with true by lia.
    - intros j Hj. unfold up. rewrite Z.ltb_irrefl, andb_false_r. by apply HD.
    - intros i Hi. unfold up. rewrite Z.ltb_irrefl. by apply HZ. }
  assert (W : wp (dgefa a n n (malloc Z n)) (fun '(a', ipvt, info) => info = 0 /\ exists M Us, rep n a' M /\ factored n (n - 1) M0 M ipvt Us /\ M (n - 1) (n - 1) <> 0%Qc) False).
  2: { apply wp_ok in W as (((a' & ipvt) & info) & E & -> & M & Us & H). exists a', ipvt, M, Us. done. }
  unfold dgefa. eapply (wp_bind' _ _ (fun '(b, ipvt, info) => info = 0 /\ exists M Us B', rep n b M /\ factored n (n - 1) M0 M ipvt Us /\ left_inv n B' (up (n - 1) M))).
  - apply (wp_forZ (fun k '(b, ipvt, info) => info = 0 /\ exists M Us B', rep n b M /\ factored n k M0 M ipvt Us /\ left_inv n B' (up k M))); [lia| | |done].
    + split; [done|]. assert (EU : forall i j, up 0 M0 i j = M0 i j \/ j < 0) by (intros i j; unfold up; destruct (Z.ltb_spec j 0); [by right|by left]). exists M0, (fun _ => M0), B. split; [done|]. split.
      * split; [unfold malloc; rewrite zlen_replicate; lia|]. split; [done|]. split; [|intros q Hq; lia]. intros i j _ Hj. destruct (EU i j); [done|lia].
      * intros i j Hi Hj. rewrite <- (HB i j Hi Hj). apply sumZ_ext. intros p _. destruct (EU p j) as [->|]; [done|lia].
    + intros k ((b, ipvt), info) Hk (-> & M & Us & B' & HR & (F1 & F2 & F3 & F4) & HL). destruct (idamax_ok n b M k HR ltac:(lia)) as (l0 & -> & Hl0 & Hmax). cbn [bind]. cbn zeta. set (l := l0 + k) in *.
      assert (Hne : M l k <> 0%Qc). { intros Hz. apply (PIV k M B'); [lia|intros q Hq; by apply F4|done|]. intros i Hi. destruct (Qc_eq_dec (M i k) 0%Qc) as [|N]; [done|]. exfalso. apply Hmax; [by exists i|done]. }
      unfold wrc. rewrite wr_ok by lia. cbn [bind]. rewrite (rep_rd n b M l k _ HR) at 1 by lia. cbn [bind]. destruct (qzero_spec (M l k)) as [|_]; [done|].
      pose proof (column_ok n b M k l (fun a => Ok (a, zset ipvt k (Some l), 0)) HR ltac:(lia) ltac:(lia) Hne) as CO. cbn beta in CO. destruct CO as (a' & M' & -> & HR' & K1 & K2 & K3). cbn [wp]. split; [done|].
      destruct (elim_forward n k l (fun i => M' i k) (up k M) (up (k + 1) M') B' ltac:(lia) ltac:(lia) K3 HL) as (B2 & HB2).
      exists M', (fun q => if q =? k + 1 then up (k + 1) M' else Us q), B2. split; [done|]. split; [|done]. split; [by rewrite zlen_zset|]. split; [intros i j Hi Hj; replace (0 =? k + 1) with false by lia; by apply F2|]. split; [intros i j _ _; by rewrite Z.eqb_refl|].
      intros q Hq. replace (q =? k + 1) with false by lia. destruct (Z.eq_dec q k) as [->|N].
      * split; [by rewrite K2|]. exists l. split; [rewrite zlook_zset by lia; by rewrite Z.eqb_refl|]. split; [lia|]. rewrite Z.eqb_refl. intros i j Hi Hj. rewrite (K3 i j Hi Hj). rewrite !F3 by (try done; try lia; apply swp_in; lia). done.
      * destruct (F4 q ltac:(lia)) as (D & l' & E1 & E2 & E3). split; [rewrite K1 by lia; done|]. exists l'. split; [rewrite zlook_zset by lia; by replace (q =? k) with false by lia|]. split; [done|]. replace (q + 1 =? k + 1) with false by lia. intros i j Hi Hj. rewrite (E3 i j Hi Hj). rewrite K1 by lia. done.
  - intros ((b, ipvt), info) (-> & M & Us & B' & HR & HF & HL). pose proof HF as (F1 & F2 & F3 & F4). unfold wrc. rewrite wr_ok by lia. cbn [bind]. rewrite (rep_rd n b M (n - 1) (n - 1) _ HR) by lia. cbn [bind].
    assert (Hne : M (n - 1) (n - 1) <> 0%Qc). { intros Hz. apply (PIV (n - 1) M B'); [lia|intros q Hq; by apply F4|done|]. intros i Hi. by replace i with (n - 1) by lia. }
    destruct (qzero_spec (M (n - 1) (n - 1))) as [|_]; [done|]. cbn [wp]. split; [done|]. exists M, Us. split; [done|]. split; [|done]. split; [by rewrite zlen_zset|]. split; [done|]. split; [done|].
    intros q Hq. destruct (F4 q Hq) as (D & l' & E1 & E2). split; [done|]. exists l'. split; [rewrite zlook_zset by lia; by replace (q =? n - 1) with false by lia|done].
Qed.
