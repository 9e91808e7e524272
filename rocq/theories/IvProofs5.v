(** The inverse from the factors. *)
From Coq Require Import QArith Qcanon ZifyBool ZifyNat.
From Verif Require Import Base ArrLib RemapSpec RemapProofs4 IvModel IvSpec IvProofs IvProofs2 IvProofs3 IvProofs4.
Local Open Scope Z_scope.

Definition triw (k : Z) (G : mat) : mat := fun i p => if (i <=? p) && (p <? k) then G i p else 0%Qc.
(** The state after [k] columns. *)
Definition part_inv (n k : Z) (F G : mat) : Prop :=
  (forall i j, j < i -> G i j = F i j) /\ (forall i j, k <= i -> k <= j -> G i j = F i j) /\
  (forall i j, 0 <= i < k -> 0 <= j < k -> sumZ n (fun p => triw k G i p * up n F p j)%Qc = unit_mat i j) /\
  (forall i j, 0 <= i < k -> k <= j < n -> G i j = sumZ n (fun p => triw k G i p * up n F p j)%Qc).
Lemma column_inv n F k a G : 0 <= k < n -> F k k <> 0%Qc -> rep n a G -> part_inv n k F G ->
  wp (let* d := rd a (k + k * n) in
    let* d := divq 1%Qc d in
    let* a := wr a (k + k * n) d in
    let* d := rd a (k + k * n) in
    let* a := dscal k (- d)%Qc a (k * n) in
    forZ (k + 1) n (fun j a =>
      let* t := rd a (k + j * n) in
      let* a := wr a (k + j * n) 0%Qc in
      daxpy (k + 1) t a (k * n) (j * n)) a) (fun a' => exists G', rep n a' G' /\ part_inv n (k + 1) F G') False.
Proof.
  intros Hk Hne HR (P1 & P2 & P3 & P4). rewrite (rep_rd n a G k k _ HR) by lia. cbn [bind]. rewrite P2 by lia. rewrite divq_ok by done. cbn [bind]. set (d := (1 / F k k)%Qc).
  destruct (rep_wr n a G k k (k + k * n) d HR) as (a1 & -> & R1); [lia..|]. cbn [bind]. rewrite (rep_rd n a1 _ k k _ R1) by lia. cbn [bind]. assert (upd G k k d k k = d) as -> by (unfold upd; by rewrite Z.eqb_refl).
  destruct (dscal_ok n k (- d)%Qc a1 _ 0 k (k * n) R1) as (a2 & -> & R2); [lia..|]. cbn [bind].
  set (c := fun i => if i =? k then d else if i <? k then (- d * G i k)%Qc else G i k).
  set (G' := fun i j => if j =? k then c i else if (k <? j) && (i <=? k) then ((if (i <? k)%Z then G i j else 0) + F k j * c i)%Qc else G i j).
  assert (R2' : rep n a2 (fun i j => if j =? k then c i else G i j)).
  { apply (rep_ext _ _ _ _ R2). intros i j Hi Hj. unfold upd, c. destruct (Z.eqb_spec j k) as [->|]; cbn [andb]; [|by rewrite andb_false_r]. rewrite andb_true_r. replace (0 <=? i) with true by lia. rewrite Z.add_0_l. cbn [andb].
    destruct (Z.ltb_spec i k) as [L|L], (Z.eqb_spec i k) as [E|E]; try lia; done. }
  assert (C : forall i, i <= k -> c i = if i =? k then d else (- d * G i k)%Qc). { intros i Hi. unfold c. destruct (Z.eqb_spec i k); [done|]. by replace (i <? k) with true by lia. }
  apply (wp_forZ (fun jj b => rep n b (fun i j => if j <? jj then G' i j else if j =? k then c i else G i j))); [lia| | |].
  - apply (rep_ext _ _ _ _ R2'). intros i j _ _. unfold G'. destruct (Z.ltb_spec j (k + 1)); [|done]. destruct (Z.eqb_spec j k); [done|]. by replace (k <? j) with false by lia.
  - intros jj b Hj HB. rewrite (rep_rd n b _ k jj _ HB) by lia. cbn [bind]. rewrite Z.ltb_irrefl. replace (jj =? k) with false by lia. rewrite P2 by lia.
    destruct (rep_wr n b _ k jj (k + jj * n) 0%Qc HB) as (b1 & -> & HB1); [lia..|]. cbn [bind]. destruct (daxpy_ok n (k + 1) (F k jj) b1 _ 0 k jj (k * n) (jj * n) HB1) as (b2 & -> & HB2); [lia..|]. cbn [wp].
    apply (rep_ext _ _ _ _ HB2). intros i j Hi Hjj. unfold upd. rewrite Z.add_0_l. replace (0 <=? i) with true by lia. rewrite andb_true_r. destruct (Z.eqb_spec j jj) as [->|N]; cbn [andb].
    + replace (jj <? jj + 1) with true by lia. rewrite Z.ltb_irrefl. replace (jj =? k) with false by lia. replace (k =? jj) with false by lia. rewrite andb_false_r, andb_true_r. replace (k <? jj) with true by lia. unfold G'. replace (jj =? k) with false by lia. replace (k <? jj) with true by lia. cbn [andb].
      rewrite Z.eqb_refl. assert (Eg : G' i k = c i) by (unfold G'; by rewrite Z.eqb_refl).
      replace (i <? k + 1) with (i <=? k) by lia. destruct (Z.leb_spec i k) as [L|L]; [|by replace (i =? k) with false by lia]. destruct (Z.eqb_spec i k) as [->|Ni]; [by rewrite Z.ltb_irrefl|]. by replace (i <? k) with true by lia.
    + rewrite andb_false_r. by replace (j <? jj + 1) with (j <? jj) by lia.
  - intros b HB. exists G'. split; [apply (rep_ext _ _ _ _ HB); intros i j _ Hj; by replace (j <? n) with true by lia|].
    assert (Et : forall i p, 0 <= i <= k -> triw (k + 1) G' i p = ((if (i <? k)%Z then triw k G i p else 0) + (if (p =? k)%Z then c i else 0))%Qc).
    { intros i p Hi. unfold triw. destruct (Z.lt_trichotomy p k) as [L|[->|L]].
      - replace (p =? k) with false by lia. replace (p <? k + 1) with true by lia. replace (p <? k) with true by lia. rewrite !andb_true_r. unfold G'. replace (p =? k) with false by lia. replace (k <? p) with false by lia. cbn [andb]. destruct (Z.leb_spec i p), (Z.ltb_spec i k); try lia; ring.
      - rewrite Z.eqb_refl, Z.ltb_irrefl, andb_false_r. replace ((i <=? k) && (k <? k + 1)) with true by lia. unfold G'. rewrite Z.eqb_refl. destruct (i <? k); ring.
      - replace (p =? k) with false by lia. replace (p <? k + 1) with false by lia. replace (p <? k) with false by lia. rewrite !andb_false_r. destruct (i <? k); ring. }
    assert (Es : forall i j, 0 <= i <= k -> sumZ n (fun p => triw (k + 1) G' i p * up n F p j)%Qc = ((if (i <? k)%Z then sumZ n (fun p => triw k G i p * up n F p j) else 0) + c i * up n F k j)%Qc).
    { intros i j Hi. transitivity (sumZ n (fun p => (if (i <? k)%Z then triw k G i p else 0) * up n F p j + (if (p =? k)%Z then c i * up n F k j else 0))%Qc); [apply sumZ_ext; intros p _; rewrite Et by done; destruct (Z.eqb_spec p k) as [->|]; ring|].
      rewrite sumZ_add. rewrite (sumZ_one n k (fun p => if (p =? k)%Z then _ else 0%Qc)) by (first [lia|intros p _ N; by destruct (Z.eqb_spec p k)]). rewrite Z.eqb_refl. destruct (i <? k); [done|]. f_equal. apply sumZ_0. intros p _. ring. }
    assert (Uk : forall j, up n F k j = if (j <? n) && (j <? k) then 0%Qc else F k j) by done. split; [|split; [|split]].
    + intros i j L. unfold G'. destruct (Z.eqb_spec j k) as [->|]; [unfold c; replace (i =? k) with false by lia; replace (i <? k) with false by lia; by apply P1|]. replace ((k <? j) && (i <=? k)) with false by lia. by apply P1.
    + intros i j Li Lj. unfold G'. replace (j =? k) with false by lia. replace (i <=? k) with false by lia. rewrite andb_false_r. apply P2; lia.
    + intros i j Hi Hj. rewrite Es by lia. rewrite C by lia. rewrite Uk. replace (j <? n) with true by lia. cbn [andb]. destruct (Z.ltb_spec i k) as [L|L].
      * replace (i =? k) with false by lia. destruct (Z.ltb_spec j k) as [Lj|Lj]; [rewrite P3 by lia; ring|]. assert (j = k) as -> by lia. rewrite <- P4 by lia. unfold unit_mat. replace (i =? k) with false by lia. unfold d. field. done.
      * assert (i = k) as -> by lia. rewrite Z.eqb_refl. unfold unit_mat. destruct (Z.ltb_spec j k) as [Lj|Lj]; [replace (k =? j) with false by lia; ring|]. assert (j = k) as -> by lia. rewrite Z.eqb_refl. unfold d. field. done.
    + intros i j Hi Hj. rewrite Es by lia. rewrite Uk. replace (j <? k) with false by lia. rewrite andb_false_r. unfold G'. replace (j =? k) with false by lia. replace ((k <? j) && (i <=? k)) with true by lia.
      destruct (Z.ltb_spec i k) as [L|L]; [rewrite P4 by lia|]; ring.
Qed.

(** The state when the columns from [k] on are done. *)
Definition unwound (n k : Z) (F : mat) (U : mat) (H : mat) : Prop := (forall i j, 0 <= j < k -> j < i < n -> H i j = F i j) /\ left_inv n (up k H) U.
Lemma column_back n F k l U U' a H work ipvt : 0 <= k < n - 1 -> k <= l < n -> ipvt @ k = Some (Some l) -> zlen work = n * n -> rep n a H -> unwound n (k + 1) F U' H -> elim n k l (fun i => F i k) U U' ->
  wp (let* (a, work) := forZ (k + 1) n (fun i '(a, work) =>
      let* v := rd a (i + k * n) in
      let* work := wrc work i v in
      let* a := wr a (i + k * n) 0%Qc in
      Ok (a, work)) (a, work) in
    let* a := forZ (k + 1) n (fun j a => let* t := rdc work j in daxpy n t a (j * n) (k * n)) a in
    let* l := rdc ipvt k in
    let* a := (if l =? k - 1 then Ok a else dswap n a (k * n) (l * n)) in
    Ok (a, work)) (fun '(a', work') => zlen work' = n * n /\ exists H', rep n a' H' /\ unwound n k F U H') False.
Proof.
  intros Hk Hl Hp Hw HR (P1 & P2) HE.
  eapply (wp_bind' _ _ (fun '(b, w) => zlen w = n * n /\ (forall i, k < i < n -> w @ i = Some (Some (H i k))) /\ rep n b (fun i j => if (j =? k) && (k <? i) then 0%Qc else H i j))).
  { apply (wp_forZ (fun ii '(b, w) => zlen w = n * n /\ (forall i, k < i < ii -> w @ i = Some (Some (H i k))) /\ rep n b (fun i j => if (j =? k) && (k <? i) && (i <? ii) then 0%Qc else H i j))); [lia| | |].
    - split; [done|]. split; [intros i Hi; lia|]. apply (rep_ext n a H); [done|]. intros i j _ _. by replace ((j =? k) && (k <? i) && (i <? k + 1)) with false by lia.
    - intros i (b, w) Hi (W1 & W2 & W3). rewrite (rep_rd n b _ i k _ W3) by lia. cbn [bind]. rewrite Z.ltb_irrefl, andb_false_r. unfold wrc. rewrite wr_ok by nia. cbn [bind].
      destruct (rep_wr n b _ i k (i + k * n) 0%Qc W3) as (b' & -> & W4); [lia..|]. cbn [bind wp]. split; [by rewrite zlen_zset|]. split.
      + intros i' Hi'. rewrite zlook_zset by nia. destruct (Z.eqb_spec i' i) as [->|]; [done|]. apply W2. lia.
      + apply (rep_ext _ _ _ _ W4). intros i' j' _ _. unfold upd. destruct (Z.eqb_spec i' i) as [->|N]; cbn [andb]; [|by replace (i' <? i + 1) with (i' <? i) by lia]. destruct (Z.eqb_spec j' k) as [->|]; cbn [andb]; [|done]. by replace ((k <? i) && (i <? i + 1)) with true by lia.
    - intros (b, w) (W1 & W2 & W3). split; [done|]. split; [done|]. apply (rep_ext _ _ _ _ W3). intros i j Hi _. replace (i <? n) with true by lia. by rewrite andb_true_r. }
  intros (b, w) (W1 & W2 & W3). set (z := fun i => if k <? i then 0%Qc else H i k).
  eapply (wp_bind' _ _ (fun b' => rep n b' (fun i j => if j =? k then (z i + sumZ n (fun q => if (k <? q)%Z then F q k * H i q else 0))%Qc else H i j))).
  { apply (wp_forZ (fun jj b' => rep n b' (fun i j => if j =? k then (z i + sumZ n (fun q => if ((k <? q) && (q <? jj))%Z then F q k * H i q else 0))%Qc else H i j))); [lia| | |].
    - apply (rep_ext _ _ _ _ W3). intros i j _ _. destruct (Z.eqb_spec j k) as [->|]; cbn [andb]; [|done]. rewrite sumZ_0; [|intros q _; by replace ((k <? q) && (q <? k + 1)) with false by lia]. unfold z. destruct (k <? i); ring.
    - intros jj b' Hj HB. rewrite (rdc_ok _ _ _ (W2 jj ltac:(lia))). cbn [bind]. destruct (daxpy_ok n n (H jj k) b' _ 0 jj k (jj * n) (k * n) HB) as (b2 & -> & HB2); [lia..|]. cbn [wp].
      apply (rep_ext _ _ _ _ HB2). intros i j Hi _. replace ((0 <=? i) && (i <? 0 + n)) with true by lia. rewrite <- andb_assoc. replace ((0 <=? i) && (i <? 0 + n)) with true by lia. rewrite andb_true_r. destruct (Z.eqb_spec j k) as [->|]; [|done]. replace (jj =? k) with false by lia.
      rewrite (P1 jj k) by lia. rewrite <- Qcplus_assoc. f_equal. transitivity (sumZ n (fun q => (if ((k <? q) && (q <? jj))%Z then F q k * H i q else 0) + (if (q =? jj)%Z then F jj k * H i jj else 0))%Qc).
      { rewrite sumZ_add. f_equal. rewrite (sumZ_one n jj (fun p => if (p =? jj)%Z then _ else 0%Qc)) by (first [lia|intros p _ N; by destruct (Z.eqb_spec p jj)]). by rewrite Z.eqb_refl. }
      apply sumZ_ext. intros q _. destruct (Z.eqb_spec q jj) as [->|]; [replace ((k <? jj) && (jj <? jj)) with false by lia; replace ((k <? jj) && (jj <? jj + 1)) with true by lia; ring|]. replace (q <? jj + 1) with (q <? jj) by lia. ring.
    - intros b' HB. apply (rep_ext _ _ _ _ HB). intros i j _ _. destruct (j =? k); [|done]. f_equal. apply sumZ_ext. intros q Hq. replace (q <? n) with true by lia. by rewrite andb_true_r. }
  intros b' HB. rewrite (rdc_ok _ _ _ Hp). cbn [bind]. replace (l =? k - 1) with false by lia. destruct (dswap_ok n b' _ k l (k * n) (l * n) HB) as (b2 & -> & HB2); [lia..|]. cbn [bind wp]. split; [done|].
  eexists. split; [exact HB2|]. split.
  - intros i j Hj Hi. replace (j =? k) with false by lia. replace (j =? l) with false by lia. apply P1; lia.
  - pose proof (elim_back n k l (fun i => F i k) U U' (up (k + 1) H) ltac:(lia) ltac:(lia) HE P2) as HB3. intros i j Hi Hj. rewrite <- (HB3 i j Hi Hj). apply sumZ_ext. intros p Hp'. f_equal. cbn zeta.
    assert (ES : forall x, (up (k + 1) H i k + sumZ n (fun q => if (k <? q)%Z then F q k * up (k + 1) H i q else 0))%Qc = x -> (z i + sumZ n (fun q => if (k <? q)%Z then F q k * H i q else 0))%Qc = x).
    { intros x <-. f_equal; [unfold up, z; by replace (k <? k + 1) with true by lia|]. apply sumZ_ext. intros q Hq. destruct (Z.ltb_spec k q); [|done]. unfold up. by replace (q <? k + 1) with false by lia. }
    unfold up at 1. unfold swp. rewrite Z.eqb_refl. destruct (Z.eqb_spec p k) as [->|N].
    + rewrite Z.ltb_irrefl. cbn [andb]. destruct (Z.eqb_spec l k) as [->|N2]; [by apply ES|]. unfold up. by replace (l <? k + 1) with false by lia.
    + destruct (Z.eqb_spec p l) as [->|N2].
      * replace (l <? k) with false by lia. cbn [andb]. rewrite Z.eqb_refl. by apply ES.
      * replace (p =? k) with false by lia. unfold up. replace (p <? k + 1) with (p <? k) by lia. done.
Qed.

Lemma dgedi_ok n a M0 M ipvt Us : 0 < n -> rep n a M -> factored n (n - 1) M0 M ipvt Us -> M (n - 1) (n - 1) <> 0%Qc ->
  exists a' X, dgedi a n n ipvt (malloc Qc (n * n)) = Ok a' /\ rep n a' X /\ left_inv n X M0.
Proof.
  intros Hn HR (F1 & F2 & F3 & F4) HN. assert (HD : forall k, 0 <= k < n -> M k k <> 0%Qc). { intros k Hk. destruct (Z.eq_dec k (n - 1)) as [->|]; [done|]. apply F4. lia. }
  assert (W : wp (dgedi a n n ipvt (malloc Qc (n * n))) (fun a' => exists X, rep n a' X /\ left_inv n X M0) False).
  2: { apply wp_ok in W as (a' & E & X & H). by exists a', X. }
  unfold dgedi. eapply (wp_bind' _ _ (fun b => exists G, rep n b G /\ part_inv n n M G)).
  { apply (wp_forZ (fun k b => exists G, rep n b G /\ part_inv n k M G)); [lia| | |done].
    - exists M. split; [done|]. split; [done|]. split; [done|]. split; intros i j Hi; lia.
    - intros k b Hk (G & HG & HP). by apply (column_inv n M k b G Hk (HD k Hk) HG). }
  intros b (G & HG & (P1 & P2 & P3 & P4)).
  eapply (wp_bind' _ _ (fun '(b', w) => exists H, rep n b' H /\ unwound n 0 M (Us 0) H)).
  2: { intros (b', w) (H & HH & _ & HL). cbn [wp]. exists H. split; [done|]. intros i j Hi Hj. rewrite <- (HL i j Hi Hj). apply sumZ_ext. intros p Hp. unfold up. replace (p <? 0) with false by lia. cbn [andb]. by rewrite F2. }
  apply (wp_forZ (fun q '(b', w) => zlen w = n * n /\ exists H, rep n b' H /\ unwound n (n - 1 - q) M (Us (n - 1 - q)) H)); [lia| | |].
  - split; [unfold malloc; rewrite zlen_replicate; nia|]. exists G. split; [done|]. rewrite Z.sub_0_r. split; [intros i j Hj Hi; apply P1; lia|]. intros i j Hi Hj. rewrite <- (P3 i j Hi Hj). apply sumZ_ext. intros p Hp. rewrite F3 by done. f_equal.
    + unfold up, triw. replace (p <? n) with true by lia. rewrite andb_true_r. destruct (Z.leb_spec i p) as [L|L]; [replace (p <? i) with false by lia; by rewrite andb_false_r|]. by replace ((p <? n - 1) && (p <? i)) with true by lia.
    + unfold up. replace (j <? n) with true by lia. cbn [andb]. destruct (Z.ltb_spec j p) as [L|L]; [by replace (j <? n - 1) with true by lia|by rewrite andb_false_r].
  - intros q (b', w) Hq (Hw & H & HH & HU). set (k := n - 2 - q). replace (n - 1 - q) with (k + 1) in * by lia. destruct (F4 k ltac:(lia)) as (_ & l & E1 & E2 & E3).
    eapply wp_mono; [apply (column_back n M k l (Us k) (Us (k + 1)) b' H w ipvt ltac:(lia) E2 E1 Hw HH HU E3)| |done]. intros (b2, w2) H2. replace (n - 1 - (q + 1)) with k by lia. done.
  - intros (b', w) (_ & H & HH & HU). exists H. split; [done|]. by replace (n - 1 - (n - 1)) with 0 in HU by lia.
Qed.
