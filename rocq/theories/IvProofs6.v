(** The inverse, the matrices without inverse, the product. *)
From Coq Require Import QArith Qcanon ZifyBool ZifyNat.
From Verif Require Import Base ArrLib RemapSpec RemapProofs RemapProofs4 IvModel IvSpec IvProofs IvProofs2 IvProofs3 IvProofs4 IvProofs5.
Local Open Scope Z_scope.

(** A matrix with all its pivots has a solution for every right hand side. *)
Lemma elim_solve n k l m U U' (y b : Z -> Qc) : 0 <= k < n -> 0 <= l < n -> k <= l -> elim n k l m U U' ->
  (forall i, 0 <= i < n -> sumZ n (fun j => U' i j * y j)%Qc = (b (swp k l i) + (if (k <? i)%Z then m i * b l else 0))%Qc) -> forall i, 0 <= i < n -> sumZ n (fun j => U i j * y j)%Qc = b i.
Proof.
  intros Hk Hl Hkl HE HS. assert (Ek : swp k l k = l) by (unfold swp; by rewrite Z.eqb_refl).
  assert (EX : forall i, 0 <= i < n -> sumZ n (fun j => U' i j * y j)%Qc = (sumZ n (fun j => U (swp k l i) j * y j) + (if (k <? i)%Z then m i * sumZ n (fun j => U l j * y j) else 0))%Qc).
  { intros i Hi. transitivity (sumZ n (fun j => U (swp k l i) j * y j + (if (k <? i)%Z then m i else 0) * (U l j * y j))%Qc); [apply sumZ_ext; intros j Hj; rewrite (HE i j Hi Hj); destruct (k <? i); ring|].
    rewrite sumZ_add, sumZ_scale. destruct (k <? i); ring. }
  assert (B0 : sumZ n (fun j => U l j * y j)%Qc = b l).
  { pose proof (HS k Hk) as H1. rewrite EX in H1 by done. rewrite Z.ltb_irrefl, Ek in H1. by rewrite !Qcplus_0_r in H1. }
  assert (B1 : forall i, 0 <= i < n -> sumZ n (fun j => U (swp k l i) j * y j)%Qc = b (swp k l i)).
  { intros i Hi. pose proof (HS i Hi) as H1. rewrite EX, B0 in H1 by done. set (u := sumZ n (fun j => U (swp k l i) j * y j)%Qc) in *. set (v := if k <? i then (m i * b l)%Qc else 0%Qc) in *.
    transitivity (u + v - v)%Qc; [ring|]. rewrite H1. ring. }
  intros i Hi. pose proof (B1 (swp k l i) ltac:(apply swp_in; lia)) as H1. by rewrite swp_swp in H1 by done.
Qed.
Lemma factored_solve n M0 M ipvt Us : 0 < n -> factored n (n - 1) M0 M ipvt Us -> M (n - 1) (n - 1) <> 0%Qc -> forall b : Z -> Qc, exists y : Z -> Qc, forall i, 0 <= i < n -> sumZ n (fun j => M0 i j * y j)%Qc = b i.
Proof.
  intros Hn (F1 & F2 & F3 & F4) HN.
  assert (HD : forall k, 0 <= k < n -> M k k <> 0%Qc). { intros k Hk. destruct (Z.eq_dec k (n - 1)) as [->|]; [done|]. apply F4. lia. }
  assert (K : forall q, 0 <= q -> q <= n - 1 -> forall b : Z -> Qc, exists y : Z -> Qc, forall i, 0 <= i < n -> sumZ n (fun j => Us (n - 1 - q)%Z i j * y j)%Qc = b i).
  { apply (natlike_ind (fun q => q <= n - 1 -> forall b : Z -> Qc, exists y : Z -> Qc, forall i, 0 <= i < n -> sumZ n (fun j => Us (n - 1 - q)%Z i j * y j)%Qc = b i)).
    - intros _ b. destruct (tri_solve n n (up (n - 1) M) ltac:(lia)) with (c := b) as (y & _ & Y).
      + intros i j Hj Hi. unfold up. by replace ((j <? n - 1) && (j <? i)) with true by lia.
      + intros j Hj. unfold up. rewrite Z.ltb_irrefl, andb_false_r. by apply HD.
      + exists y. intros i Hi. rewrite <- (Y i Hi). apply sumZ_ext. intros j Hj. rewrite Z.sub_0_r. by rewrite F3.
    - intros q Hq IH Hle b. set (k := n - 1 - Z.succ q). destruct (F4 k ltac:(lia)) as (_ & l & _ & E2 & E3). destruct (IH ltac:(lia) (fun i => b (swp k l i) + (if (k <? i)%Z then M i k * b l else 0))%Qc) as (y & Y). exists y.
      apply (elim_solve n k l (fun i => M i k) (Us k) (Us (k + 1)) y b ltac:(lia) ltac:(lia) ltac:(lia) E3). intros i Hi. rewrite <- (Y i Hi). by replace (k + 1) with (n - 1 - q) by lia. }
  intros b. destruct (K (n - 1) ltac:(lia) ltac:(lia) b) as (y & Y). exists y. intros i Hi. rewrite <- (Y i Hi). apply sumZ_ext. intros j Hj. replace (n - 1 - (n - 1)) with 0 by lia. by rewrite F2.
Qed.
(** The factors of any matrix: all the pivots, or a zero on the diagonal. *)
Lemma dgefa_any n a M0 : 0 < n -> rep n a M0 ->
  exists a' ipvt info M, dgefa a n n (malloc Z n) = Ok (a', ipvt, info) /\ rep n a' M /\ ((exists q, 0 <= q < n /\ M q q = 0%Qc) \/ exists Us, factored n (n - 1) M0 M ipvt Us /\ M (n - 1) (n - 1) <> 0%Qc).
Proof.
  intros Hn HM.
  assert (W : wp (dgefa a n n (malloc Z n)) (fun '(a', ipvt, info) => exists M, rep n a' M /\ ((exists q, 0 <= q < n /\ M q q = 0%Qc) \/ exists Us, factored n (n - 1) M0 M ipvt Us /\ M (n - 1) (n - 1) <> 0%Qc)) False).
  2: { apply wp_ok in W as (((a' & ipvt) & info) & E & M & H). exists a', ipvt, info, M. done. }
  unfold dgefa. eapply (wp_bind' _ _ (fun '(b, ipvt, info) => zlen ipvt = n /\ exists M, rep n b M /\ ((exists q, 0 <= q < n - 1 /\ M q q = 0%Qc) \/ exists Us, factored n (n - 1) M0 M ipvt Us))).
  - apply (wp_forZ (fun k '(b, ipvt, info) => zlen ipvt = n /\ exists M, rep n b M /\ ((exists q, 0 <= q < k /\ M q q = 0%Qc) \/ exists Us, factored n k M0 M ipvt Us))); [lia| | |done].
    + assert (L : zlen (malloc Z n) = n) by (unfold malloc; rewrite zlen_replicate; lia). split; [done|]. exists M0. split; [done|]. right. exists (fun _ => M0). split; [done|]. split; [done|]. split; [|intros q Hq; lia]. intros i j _ Hj. unfold up. by replace (j <? 0) with false by lia.
    + intros k ((b, ipvt), info) Hk (HL & M & HR & HC). destruct (idamax_ok n b M k HR ltac:(lia)) as (l0 & -> & Hl0 & Hmax). cbn [bind]. cbn zeta. set (l := l0 + k) in *.
      unfold wrc. rewrite wr_ok by lia. cbn [bind]. rewrite (rep_rd n b M l k _ HR) at 1 by lia. cbn [bind]. destruct (qzero_spec (M l k)) as [Hz|Hne].
      { cbn [wp]. split; [by rewrite zlen_zset|]. exists M. split; [done|]. left. exists k. split; [lia|]. destruct (Qc_eq_dec (M k k) 0%Qc) as [|N]; [done|]. exfalso. apply Hmax; [exists k; split; [lia|done]|done]. }
      pose proof (column_ok n b M k l (fun a => Ok (a, zset ipvt k (Some l), info)) HR ltac:(lia) ltac:(lia) Hne) as CO. cbn beta in CO. destruct CO as (a' & M' & -> & HR' & K1 & K2 & K3). cbn [wp]. split; [by rewrite zlen_zset|].
      exists M'. split; [done|]. destruct HC as [(q & Hq & Hq0)|(Us & F1 & F2 & F3 & F4)]; [left; exists q; split; [lia|]; rewrite K1 by lia; done|right].
      exists (fun q => if q =? k + 1 then up (k + 1) M' else Us q). split; [by rewrite zlen_zset|]. split; [intros i j Hi Hj; replace (0 =? k + 1) with false by lia; by apply F2|]. split; [intros i j _ _; by rewrite Z.eqb_refl|].
      intros q Hq. replace (q =? k + 1) with false by lia. destruct (Z.eq_dec q k) as [->|N].
      * split; [by rewrite K2|]. exists l. split; [rewrite zlook_zset by lia; by rewrite Z.eqb_refl|]. split; [lia|]. rewrite Z.eqb_refl. intros i j Hi Hj. rewrite (K3 i j Hi Hj). rewrite !F3 by (try done; try lia; apply swp_in; lia). done.
      * destruct (F4 q ltac:(lia)) as (D & l' & E1 & E2 & E3). split; [rewrite K1 by lia; done|]. exists l'. split; [rewrite zlook_zset by lia; by replace (q =? k) with false by lia|]. split; [done|]. replace (q + 1 =? k + 1) with false by lia. intros i j Hi Hj. rewrite (E3 i j Hi Hj). rewrite K1 by lia. done.
  - intros ((b, ipvt), info) (HL & M & HR & HC). unfold wrc. rewrite wr_ok by lia. cbn [bind]. rewrite (rep_rd n b M (n - 1) (n - 1) _ HR) by lia. cbn [bind wp]. exists M. split; [done|].
    destruct HC as [(q & Hq & Hq0)|(Us & F1 & F2 & F3 & F4)]; [left; exists q; split; [lia|done]|]. destruct (Qc_eq_dec (M (n - 1) (n - 1)) 0%Qc) as [Hz|Hne]; [left; exists (n - 1); split; [lia|done]|right]. exists Us. split; [|done]. split; [by rewrite zlen_zset|]. split; [done|]. split; [done|].
    intros q Hq. destruct (F4 q Hq) as (D & l' & E1 & E2). split; [done|]. exists l'. split; [rewrite zlook_zset by lia; by replace (q =? n - 1) with false by lia|done].
Qed.
Lemma least_zero (f : Z -> Qc) q : 0 <= q -> f q = 0%Qc -> exists r, 0 <= r <= q /\ f r = 0%Qc /\ forall s, 0 <= s < r -> f s <> 0%Qc.
Proof.
  intros Hq. revert q Hq. apply (Zlt_0_ind (fun q => f q = 0%Qc -> exists r, 0 <= r <= q /\ f r = 0%Qc /\ forall s, 0 <= s < r -> f s <> 0%Qc)). intros q IH Hq Hz.
  assert (D : (exists s, 0 <= s < q /\ f s = 0%Qc) \/ (forall s, 0 <= s < q -> f s <> 0%Qc)).
  { clear IH Hz. revert q Hq. apply (natlike_ind (fun q => (exists s, 0 <= s < q /\ f s = 0%Qc) \/ (forall s, 0 <= s < q -> f s <> 0%Qc))); [right; intros s Hs; lia|]. intros q Hq [(s & Hs & E)|H]; [left; exists s; split; [lia|done]|].
    destruct (Qc_eq_dec (f q) 0%Qc) as [E|N]; [left; exists q; split; [lia|done]|right]. intros s Hs. destruct (Z.eq_dec s q) as [->|]; [done|]. apply H. lia. }
  destruct D as [(s & Hs & E)|H]; [|exists q; split; [lia|]; by split]. destruct (IH s Hs E) as (r & Hr & H). exists r. split; [lia|done].
Qed.
Lemma dgedi_zero n a M ipvt work q : 0 <= q < n -> rep n a M -> M q q = 0%Qc -> dgedi a n n ipvt work = UB.
Proof.
  intros Hq HR Hz. destruct (least_zero (fun k => M k k) q ltac:(lia) Hz) as (r & Hr & Hr0 & HD). unfold dgedi. rewrite (forZ_split 0 r n) by lia. match goal with |- context [forZ 0 r ?bd a] => set (body := bd) end.
  assert (W : wp (forZ 0 r body a) (fun b => exists G, rep n b G /\ part_inv n r M G) False).
  { apply (wp_forZ (fun k b => exists G, rep n b G /\ part_inv n k M G)); [lia| | |done].
    - exists M. split; [done|]. split; [done|]. split; [done|]. split; intros i j Hi; lia.
    - intros k b Hk (G & HG & HP). by apply (column_inv n M k b G ltac:(lia) (HD k Hk) HG). }
  apply wp_ok in W as (b & -> & G & HG & (_ & P2 & _)). cbn [bind]. rewrite forZ_step by lia. unfold body at 1. rewrite (rep_rd n b G r r _ HG) by lia. cbn [bind]. rewrite P2 by lia. unfold divq. destruct (qzero_spec (M r r)) as [_|N]; [done|]. by destruct N.
Qed.

Definition tr (M : mat) : mat := fun i j => M j i.
Lemma rows_rep n l M : by_rows n n l M <-> rep n l (tr M).
Proof. split; intros [H1 H2]; (split; [done|]); intros i j Hi Hj; [unfold tr; rewrite <- (H2 j i Hj Hi); f_equal; lia|]. replace (i * n + j) with (j + i * n) by lia. by rewrite (H2 j i Hj Hi). Qed.
Lemma inverse_unique n (A B X : mat) : left_inv n X A -> (forall i j, 0 <= i < n -> 0 <= j < n -> sumZ n (fun p => A i p * B p j)%Qc = unit_mat i j) -> forall i j, 0 <= i < n -> 0 <= j < n -> X i j = B i j.
Proof.
  intros HX HB i j Hi Hj. transitivity (sumZ n (fun p => X i p * unit_mat p j)%Qc).
  { rewrite (sumZ_one n j) by (first [done|intros p _ N; unfold unit_mat; destruct (Z.eqb_spec p j); [congruence|ring]]). unfold unit_mat. rewrite Z.eqb_refl. ring. }
  transitivity (sumZ n (fun p => sumZ n (fun q => X i p * A p q * B q j))%Qc). { apply sumZ_ext. intros p Hp. rewrite <- (HB p j Hp Hj). rewrite <- sumZ_scale. apply sumZ_ext. intros q _. ring. }
  rewrite sumZ_exch. transitivity (sumZ n (fun q => unit_mat i q * B q j)%Qc). { apply sumZ_ext. intros q Hq. rewrite <- (HX i q Hi Hq). by rewrite <- sumZ_scale_r. }
  rewrite (sumZ_one n i) by (first [done|intros p _ N; unfold unit_mat; destruct (Z.eqb_spec i p); [congruence|ring]]). unfold unit_mat. rewrite Z.eqb_refl. ring.
Qed.
Lemma take_all_rows n A (MA : mat) : by_rows n n A MA -> (zlen A <? n * n) = false /\ take (Z.to_nat (n * n)) A = A.
Proof. intros [H _]. split; [lia|]. apply take_ge. unfold zlen in H. lia. Qed.

Lemma unit_sym i j : unit_mat i j = unit_mat j i.
Proof. unfold unit_mat. by rewrite Z.eqb_sym. Qed.
Lemma inverse_ok n A MA MB : 0 < n -> by_rows n n A MA -> inverse n MA MB -> exists l, inverseMatrix A n = Ok l /\ by_rows n n l MB.
Proof.
  intros Hn HA (I1 & I2). unfold inverseMatrix. destruct (take_all_rows n A MA HA) as (-> & ->). cbn [ubif].
  assert (LB : left_inv n (tr MB) (tr MA)). { intros i j Hi Hj. rewrite unit_sym, (I1 j i Hj Hi). apply sumZ_ext. intros p _. unfold tr. ring. }
  destruct (dgefa_ok n A (tr MA) (tr MB) Hn (proj1 (rows_rep n A MA) HA) LB) as (a' & ipvt & M & Us & -> & HR & HF & HN). cbn [bind].
  destruct (dgedi_ok n a' (tr MA) M ipvt Us Hn HR HF HN) as (l & X & -> & HX & HL). exists l. split; [done|]. apply rows_rep. apply (rep_ext _ _ _ _ HX).
  apply (inverse_unique n (tr MA) (tr MB) X HL). intros i j Hi Hj. rewrite unit_sym, (I2 j i Hj Hi). apply sumZ_ext. intros p _. unfold tr. ring.
Qed.
Lemma any_ok n A MA : 0 < n -> by_rows n n A MA -> inverseMatrix A n = UB \/ exists l MB, inverseMatrix A n = Ok l /\ by_rows n n l MB /\ inverse n MA MB.
Proof.
  intros Hn HA. unfold inverseMatrix. destruct (take_all_rows n A MA HA) as (-> & ->). cbn [ubif].
  destruct (dgefa_any n A (tr MA) Hn (proj1 (rows_rep n A MA) HA)) as (a' & ipvt & info & M & -> & HR & HC). cbn [bind]. destruct HC as [(q & Hq & Hz)|(Us & HF & HN)]; [left; by apply (dgedi_zero n a' M ipvt _ q)|right].
  destruct (dgedi_ok n a' (tr MA) M ipvt Us Hn HR HF HN) as (l & X & -> & HX & HL). exists l, (tr X). split; [done|]. split; [by apply rows_rep|].
  assert (HRt : forall i j, 0 <= i < n -> 0 <= j < n -> sumZ n (fun p => tr MA i p * X p j)%Qc = unit_mat i j).
  { intros i j Hi Hj. destruct (factored_solve n (tr MA) M ipvt Us Hn HF HN (fun i => unit_mat i j)) as (y & Y).
    pose proof (inverse_unique n (tr MA) (fun p c => if c =? j then y p else 0%Qc) X HL) as _. rewrite <- (Y i Hi). apply sumZ_ext. intros p Hp. f_equal.
    transitivity (sumZ n (fun q => X p q * unit_mat q j)%Qc). { rewrite (sumZ_one n j) by (first [done|intros r _ N; unfold unit_mat; destruct (Z.eqb_spec r j); [congruence|ring]]). unfold unit_mat. rewrite Z.eqb_refl. ring. }
    transitivity (sumZ n (fun q => sumZ n (fun r => X p q * tr MA q r * y r))%Qc). { apply sumZ_ext. intros q Hq. rewrite <- (Y q Hq). rewrite <- sumZ_scale. apply sumZ_ext. intros r _. ring. }
    rewrite sumZ_exch. transitivity (sumZ n (fun r => unit_mat p r * y r)%Qc). { apply sumZ_ext. intros r Hr. rewrite <- (HL p r Hp Hr). by rewrite <- sumZ_scale_r. }
    rewrite (sumZ_one n p) by (first [done|intros r _ N; unfold unit_mat; destruct (Z.eqb_spec p r); [congruence|ring]]). unfold unit_mat. rewrite Z.eqb_refl. ring. }
  split; intros i j Hi Hj.
  - rewrite unit_sym, <- (HL j i Hj Hi). apply sumZ_ext. intros p _. unfold tr. ring.
  - rewrite unit_sym, <- (HRt j i Hj Hi). apply sumZ_ext. intros p _. unfold tr. ring.
Qed.
Lemma only_inverse n A MA l : 0 < n -> by_rows n n A MA -> inverseMatrix A n = Ok l -> exists MB, by_rows n n l MB /\ inverse n MA MB.
Proof. intros Hn HA E. destruct (any_ok n A MA Hn HA) as [E2|(l' & MB & E2 & H)]; rewrite E2 in E; [done|]. injection E as <-. by exists MB. Qed.
Lemma singular_ub n A MA : 0 < n -> by_rows n n A MA -> ~ (exists MB, inverse n MA MB) -> inverseMatrix A n = UB.
Proof. intros Hn HA HN. destruct (any_ok n A MA Hn HA) as [E|(l' & MB & _ & _ & H)]; [done|]. destruct HN. by exists MB. Qed.

(** The product. *)
Lemma sumZ_last k (f : Z -> Qc) : 0 <= k -> sumZ (k + 1) f = (sumZ k f + f k)%Qc.
Proof. intros Hk. unfold sumZ. rewrite seqZ_app by lia. rewrite map_app. change (seqZ (0 + k) 1) with [0 + k]. cbn [map]. by rewrite sumQ_snoc, Z.add_0_l. Qed.
Lemma product_ok n1 p p2 A B MA MB : 0 <= n1 -> 0 <= p -> 0 <= p2 -> by_rows n1 p A MA -> by_rows p p2 B MB ->
  exists l MC, matrixProduct A n1 p B p p2 = Ok (Some <$> l) /\ by_rows n1 p2 l MC /\ is_product n1 p p2 MA MB MC.
Proof.
  intros H1 H2 H3 (A1 & A2) (B1 & B2). set (MC := fun i j => sumZ p (fun k => MA i k * MB k j)%Qc). unfold matrixProduct. rewrite Z.eqb_refl. cbn [negb ifthrow].
  set (done_ := fun (i j : Z) (C : list (option Qc)) => zlen C = n1 * p2 /\ forall i' j', 0 <= i' < n1 -> 0 <= j' < p2 -> i' < i \/ (i' = i /\ j' < j) -> C @ (i' * p2 + j') = Some (Some (MC i' j'))).
  match goal with |- exists l MC, ?r = _ /\ _ => assert (W : wp r (fun C => done_ n1 0 C) False) end.
  { apply (wp_forZ (fun i C => done_ i 0 C)); [lia| | |done].
    - split; [unfold malloc; rewrite zlen_replicate; nia|]. intros i' j' Hi Hj Hij. lia.
    - intros i C Hi HC. apply (wp_forZ (fun j C => done_ i j C)); [lia|done| |].
      + clear C HC. intros j C Hj (C1 & C2). assert (R : 0 <= i * p2 + j < zlen C) by nia. unfold wrc at 1. rewrite wr_ok by done. cbn [bind].
        apply (wp_forZ (fun k C' => zlen C' = n1 * p2 /\ C' @ (i * p2 + j) = Some (Some (sumZ k (fun k => MA i k * MB k j)%Qc)) /\ forall x, x <> i * p2 + j -> 0 <= x < n1 * p2 -> C' @ x = C @ x)); [lia| | |].
        * split; [by rewrite zlen_zset|]. split; [rewrite zlook_zset by done; by rewrite Z.eqb_refl|]. intros x Hx Hx2. rewrite zlook_zset by done. by destruct (Z.eqb_spec x (i * p2 + j)).
        * intros k C' Hk (D1 & D2 & D3). rewrite (rdc_ok _ _ _ D2). cbn [bind]. rewrite (rd_ok A (i * p + k) (MA i k)) by (apply A2; lia). cbn [bind]. rewrite (rd_ok B (k * p2 + j) (MB k j)) by (apply B2; lia). cbn [bind]. unfold wrc. rewrite wr_ok by lia. cbn [wp].
          split; [by rewrite zlen_zset|]. split; [rewrite zlook_zset by lia; rewrite Z.eqb_refl; rewrite sumZ_last by lia; done|]. intros x Hx Hx2. rewrite zlook_zset by lia. destruct (Z.eqb_spec x (i * p2 + j)); [done|]. by apply D3.
        * intros C' (D1 & D2 & D3). split; [done|]. intros i' j' Hi' Hj' Hij. destruct (decide (i' = i /\ j' = j)) as [[-> ->]|N]; [done|]. rewrite D3; [apply C2; [done|done|lia]| |nia]. intros E. apply N. assert (i' = i) by nia. split; [done|]. subst i'. lia.
      + intros C' (C1 & C2). split; [done|]. intros i' j' Hi' Hj' Hij. apply C2; [done|done|lia]. }
  apply wp_ok in W as (C & E & C1 & C2). rewrite E.
  set (l := (fun x => default 0%Qc (C @ x ≫= id)) <$> seqZ 0 (n1 * p2)).
  assert (L1 : zlen l = n1 * p2) by (unfold l, zlen; rewrite fmap_length, seqZ_length; nia).
  assert (L2 : forall i j, 0 <= i < n1 -> 0 <= j < p2 -> l @ (i * p2 + j) = Some (MC i j)). { intros i j Hi Hj. unfold l. rewrite zlook_fmap, zlook_seqZ by nia. cbn [fmap option_fmap option_map]. rewrite Z.add_0_l, C2 by (try done; lia). done. }
  exists l, MC. split; [|split; [by split|by intros i j _ _]]. f_equal. apply zlook_ext_lt; [rewrite C1; unfold zlen in *; rewrite fmap_length; lia|].
  intros x Hx. rewrite C1 in Hx. assert (0 < p2) by nia. pose proof (Z.div_mod x p2 ltac:(lia)) as DM. pose proof (Z.mod_pos_bound x p2 ltac:(lia)) as MB'. assert (0 <= x / p2 < n1) by nia.
  replace x with (x / p2 * p2 + x mod p2) by lia. rewrite C2 by (try done; lia). rewrite zlook_fmap, L2 by done. done.
Qed.
Lemma product_sizes n1 p1 n2 p2 A B : p1 <> n2 -> matrixProduct A n1 p1 B n2 p2 = Throw.
Proof. intros H. unfold matrixProduct. by destruct (Z.eqb_spec p1 n2). Qed.
