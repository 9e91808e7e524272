From Coq Require Import QArith ZifyBool ZifyNat.
From Verif Require Import CellModel CellProofs4 Base DataArray ArrLib FillLib StdModel StdProofs SetsProofs IndexSpec IndexProofs3 IndexProofs4 CellTable UmModel UmSpec UmProofs UcModel UcSpec.
Local Open Scope Z_scope.

(** * Likeness is an equivalence *)
Lemma rotated_refl l : rotated l l.
Proof. exists l, []. by rewrite app_nil_r. Qed.
Lemma rotated_sym l l' : rotated l l' -> rotated l' l.
Proof. intros (a & b & -> & ->). by exists b, a. Qed.
Lemma rotated_trans x y z : rotated x y -> rotated y z -> rotated x z.
Proof.
  intros (a & b & -> & ->) (c & d & E & ->). apply app_eq_inv in E as [(e & -> & ->)|(e & -> & ->)].
  - exists (a ++ c), e. rewrite <- !app_assoc. done.
  - exists e, (d ++ b). rewrite <- !app_assoc. done.
Qed.
Lemma rotated_elem l l' : rotated l l' -> forall n, n ∈ l <-> n ∈ l'.
Proof. intros (a & b & -> & ->) n. rewrite !elem_of_app. tauto. Qed.
Lemma alike_refl p c : alike p c c.
Proof.
  unfold alike. destruct (p =? 0); [done|]. destruct (p =? 1); [split; [done|]; split; [apply rotated_refl|done]|].
  destruct (p =? 2); [split; [done|]; done|done].
Qed.
Lemma same_nodes_sym l l' : same_nodes l l' -> same_nodes l' l.
Proof. intros [H1 H2]. split; [done|]. intros n. by rewrite H2. Qed.
Lemma same_nodes_trans x y z : same_nodes x y -> same_nodes y z -> same_nodes x z.
Proof. intros [H1 H2] [H3 H4]. split; [congruence|]. intros n. by rewrite H2, H4. Qed.
Lemma alike_sym p c d : alike p c d -> alike p d c.
Proof.
  unfold alike. destruct (p =? 0); [done|]. destruct (p =? 1).
  - intros (E & R & H). split; [done|]. split; [by apply rotated_sym|]. rewrite <- E. intros Hd. symmetry. auto.
  - destruct (p =? 2); [intros [E H]; split; [done|]; by apply same_nodes_sym|apply same_nodes_sym].
Qed.
Lemma alike_trans p c d e : alike p c d -> alike p d e -> alike p c e.
Proof.
  unfold alike. destruct (p =? 0); [congruence|]. destruct (p =? 1).
  - intros (E & R & H) (E' & R' & H'). split; [congruence|]. split; [by eapply rotated_trans|]. intros Hd. rewrite H by done. apply H'. by rewrite <- E.
  - destruct (p =? 2); [intros [E H] [E' H']; split; [congruence|]; by eapply same_nodes_trans|apply same_nodes_trans].
Qed.
Lemma alike_nodes p c d : alike p c d -> forall n, n ∈ c.2 <-> n ∈ d.2.
Proof.
  unfold alike. destruct (p =? 0); [by intros ->|]. destruct (p =? 1); [intros (_ & R & _); by apply rotated_elem|]. destruct (p =? 2); [intros (_ & _ & H); done|intros (_ & H); done].
Qed.

(** * Equality of two cells *)
Lemma range_mid (P l R : list Z) : range (P ++ l ++ R) (zlen P) (zlen P + zlen l) = Ok l.
Proof.
  unfold range. rewrite !zlen_app. pose proof (zlen_nonneg P). pose proof (zlen_nonneg l). pose proof (zlen_nonneg R).
  replace (_ && _) with true by lia. f_equal. replace (Z.to_nat (zlen P)) with (length P) by (unfold zlen; lia). rewrite drop_app. rewrite take_app_alt; [done|]. unfold zlen. lia.
Qed.
Lemma cell_range (cells : list cell) conn connI i (c : cell) : skyline (pk <$> cells) conn connI -> cells @ i = Some c ->
  exists a, rd connI i = Ok a /\ rd connI (i + 1) = Ok (a + 1 + zlen c.2) /\ rd conn a = Ok c.1 /\ range conn (a + 1) (a + 1 + zlen c.2) = Ok c.2 /\
    (forall k v, c.2 @ k = Some v -> rd conn (a + 1 + k) = Ok v) /\ 0 <= a.
Proof.
  intros H Hc. destruct (cell_at cells conn connI i c H Hc) as (a & E1 & E2 & Ha & Hb & P & R & EP & HP). exists a.
  split; [by apply rd_ok|]. split; [by apply rd_ok|]. assert (EP' : conn = (P ++ [c.1]) ++ c.2 ++ R) by (rewrite EP, <- app_assoc; done).
  assert (HP' : zlen (P ++ [c.1]) = a + 1) by (rewrite zlen_app, zlen_cons, zlen_nil; lia).
  split; [apply rd_ok; rewrite EP, zlook_app_r by lia; rewrite HP, Z.sub_diag; done|]. split; [rewrite EP', <- HP'; apply range_mid|]. split; [|done].
  intros k v Hk. pose proof (zlook_Some_lt _ _ _ Hk). apply rd_ok. rewrite EP', zlook_app_r by lia. rewrite HP'. replace (a + 1 + k - (a + 1)) with k by lia. rewrite zlook_app_l by lia. done.
Qed.
Lemma search_same l y : search l y = CellModel.search l y.
Proof.
  assert (Hp : forall p l, prefixb p l = CellModel.isPrefix p l).
  { unfold CellModel.isPrefix. induction p as [|a p IH]; intros l'; [done|]. destruct l' as [|b l']; [done|]. cbn [prefixb length take]. rewrite IH.
    destruct (Z.eqb_spec a b) as [->|Hab]; cbn [andb]; [apply bool_decide_ext; split; congruence|]. symmetry. apply bool_decide_eq_false. congruence. }
  induction l as [|x l IH]; cbn; rewrite Hp; [done|]. by rewrite IH.
Qed.
Lemma search_rot x y : zlen x = zlen y -> x <> [] -> search (x ++ x) y <> 2 * zlen x <-> rotated x y.
Proof.
  rewrite search_same. intros Hl Hx. assert (Hy : y <> []) by (intros ->; destruct x; [done|rewrite zlen_cons, zlen_nil in Hl; pose proof (zlen_nonneg x); lia]).
  assert (H2 : zlen (x ++ x) = 2 * zlen x) by (rewrite zlen_app; lia). assert (Hln : length x = length y) by (unfold zlen in Hl; lia).
  destruct (CellProofs4.search_spec y Hy (x ++ x)) as [(k & Hk & E & Hd)|(E & Hn)].
  - split; [intros _|intros _; rewrite E, <- H2; unfold zlen; lia]. pose proof (f_equal length Hd) as Hd'. rewrite take_length, drop_length, app_length in Hd'.
    assert (0 < length y)%nat by (destruct y; [done|cbn; lia]). assert (k <= length x)%nat as Hk2 by lia. exists (take k x), (drop k x). split; [by rewrite take_drop|]. rewrite <- Hd. rewrite drop_app_le by lia. rewrite take_app_ge by (rewrite drop_length; lia).
    f_equal. rewrite drop_length. rewrite <- Hln. f_equal. lia.
  - split; [lia|]. intros (a & b & -> & ->) _. destruct b as [|z b].
    + apply (Hn 0%nat). rewrite drop_0. rewrite app_nil_r in *. cbn [app]. rewrite take_app. done.
    + apply (Hn (length a)). rewrite <- app_assoc. rewrite drop_app. rewrite app_assoc. rewrite take_app_alt; [done|]. rewrite !app_length. lia.
Qed.
Lemma set_eq x y : set_of x = set_of y <-> forall n, n ∈ x <-> n ∈ y.
Proof.
  split.
  - intros E n. by rewrite <- (elem_of_set_of x), <- (elem_of_set_of y), E.
  - intros H. apply SS_ext; [apply SS_set_of..|]. intros n. rewrite !elem_of_set_of. apply H.
Qed.
Lemma equal_ok cells conn connI i j c d p : skyline (pk <$> cells) conn connI -> policy_for p cells -> with_nodes cells -> cells @ i = Some c -> cells @ j = Some d ->
  exists b : bool, AreCellsEqual conn connI i j p = Ok (if b then 1 else 0) /\ (b = true <-> alike p c d).
Proof.
  intros Hs (Hp & Hp1) Hw Hc Hd.
  destruct (cell_range _ _ _ _ _ Hs Hc) as (a & A1 & A2 & A3 & A4 & _). destruct (cell_range _ _ _ _ _ Hs Hd) as (a' & B1 & B2 & B3 & B4 & _).
  assert (Hsz : forall k, sameSize connI i j k = if zlen c.2 =? zlen d.2 then k a (a + 1 + zlen c.2) a' (a' + 1 + zlen d.2) else Ok 0).
  { intros k. unfold sameSize. rewrite A1, A2, B1, B2. cbn [bind]. destruct (Z.eqb_spec (zlen c.2) (zlen d.2)), (Z.eqb_spec (a + 1 + zlen c.2 - a) (a' + 1 + zlen d.2 - a')); try lia; done. }
  assert (Hty : forall k, sameType conn a a' k = if c.1 =? d.1 then k c.1 else Ok 0) by (intros k; unfold sameType; rewrite A3, B3; done).
  assert (Hne : c.2 <> []). { destruct (Hw c) as [(n & Hn & _) _]; [by eapply zlook_elem|]. intros E. rewrite E in Hn. by apply elem_of_nil in Hn. }
  unfold AreCellsEqual, alike.
  destruct (Z.eqb_spec p 0); [|destruct (Z.eqb_spec p 1); [|destruct (Z.eqb_spec p 2); [|replace (p =? 3) with true by lia]]].
  - unfold AreCellsEqualPolicy0. rewrite Hsz. destruct (Z.eqb_spec (zlen c.2) (zlen d.2)) as [E|E].
    + rewrite A4, B4. cbn [bind]. exists (bool_decide (c.2 = d.2)). split; [done|]. apply bool_decide_eq_true.
    + exists false. split; [done|]. split; [done|]. intros H. rewrite H in E. done.
  - unfold AreCellsEqualPolicy1. rewrite Hsz. destruct (Z.eqb_spec (zlen c.2) (zlen d.2)) as [E|E].
    2:{ exists false. split; [done|]. split; [done|]. intros (_ & (u & v & H1 & H2) & _). rewrite H1, H2 in E. rewrite !zlen_app in E. lia. }
    rewrite Hty. destruct (Z.eqb_spec c.1 d.1) as [Et|Et]; [|exists false; split; [done|]; split; [done|]; tauto].
    destruct (Hp1 ltac:(done) c) as (k & Ek & Hk); [by eapply zlook_elem|]. rewrite Ek. cbn [bind]. replace (cm_dim k =? 3) with false by lia. cbn [negb]. rewrite A4, B4. cbn [bind].
    destruct (Z.eqb_spec (cm_dim k) 1) as [E1|E1]; cbn [negb].
    + exists (bool_decide (c.2 = d.2)). split; [done|]. rewrite bool_decide_eq_true. split.
      * intros H. split; [done|]. rewrite H. split; [apply rotated_refl|done].
      * intros (_ & _ & H). apply H. exists k. done.
    + replace (a + 1 + zlen c.2 - a - 1) with (zlen c.2) by lia. exists (negb (search (c.2 ++ c.2) d.2 =? 2 * zlen c.2)). split; [by destruct (_ =? _)|].
      rewrite negb_true_iff, Z.eqb_neq. rewrite search_rot by done. split; [|tauto]. intros H. split; [done|]. split; [done|]. intros (k' & Ek' & Hk'). congruence.
  - unfold AreCellsEqualPolicy2. rewrite Hsz. destruct (Z.eqb_spec (zlen c.2) (zlen d.2)) as [E|E].
    2:{ exists false. split; [done|]. split; [done|]. intros (_ & H & _). lia. }
    rewrite Hty. destruct (Z.eqb_spec c.1 d.1) as [Et|Et]; [|exists false; split; [done|]; split; [done|]; tauto].
    rewrite A4, B4. cbn [bind]. exists (bool_decide (set_of c.2 = set_of d.2)). split; [done|]. rewrite bool_decide_eq_true, set_eq. unfold same_nodes. tauto.
  - unfold AreCellsEqualPolicy2NoType. rewrite Hsz. destruct (Z.eqb_spec (zlen c.2) (zlen d.2)) as [E|E].
    2:{ exists false. split; [done|]. split; [done|]. intros (H & _). lia. }
    rewrite A4, B4. cbn [bind]. exists (bool_decide (set_of c.2 = set_of d.2)). split; [done|]. rewrite bool_decide_eq_true, set_eq. unfold same_nodes. tauto.
Qed.
