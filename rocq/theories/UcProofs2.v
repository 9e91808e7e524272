From Coq Require Import QArith ZifyBool ZifyNat.
From Verif Require Import CellModel CellProofs4 Base DataArray ArrLib FillLib StdModel StdProofs SetsProofs IndexSpec IndexProofs3 IndexProofs4 CellTable UmModel UmSpec UmProofs UcModel UcSpec UcProofs.
Local Open Scope Z_scope.

Notation cnt := (count_occ Z.eq_dec).
Notation SLe := (StronglySorted Z.le).
Lemma cnt_in l (x : Z) : (0 < cnt l x)%nat <-> x ∈ l.
Proof. rewrite elem_of_list_In. symmetry. apply count_occ_In. Qed.
Lemma cnt_notin l (x : Z) : cnt l x = 0%nat <-> x ∉ l.
Proof. rewrite <- cnt_in. lia. Qed.

(** * Intersection of sorted lists *)
Lemma sle_below x y b : SLe (y :: b) -> x < y -> cnt (y :: b) x = 0%nat.
Proof. intros H Hx. apply cnt_notin. inversion H as [|? ? Hs Hf]; subst. intros [->|Hin]%elem_of_cons; [lia|]. rewrite Forall_forall in Hf. specialize (Hf x Hin). lia. Qed.
Lemma inter_count a b x : SLe a -> SLe b -> cnt (set_intersection a b) x = Nat.min (cnt a x) (cnt b x).
Proof.
  revert b. induction a as [|u a IHa]; intros b Ha Hb; [by destruct b|]. inversion Ha as [|? ? Ha' _]; subst.
  induction b as [|v b IHb]; [rewrite set_intersection_nil_r; cbn [count_occ]; lia|]. inversion Hb as [|? ? Hb' _]; subst.
  rewrite set_intersection_cons. destruct (Z.ltb_spec u v); [|destruct (Z.ltb_spec v u)].
  - rewrite IHa by done. cbn [count_occ]. destruct (Z.eq_dec u x) as [->|]; [|done]. pose proof (sle_below x v b Hb ltac:(done)) as H0. cbn [count_occ] in H0. rewrite H0. lia.
  - rewrite IHb by done. cbn [count_occ]. destruct (Z.eq_dec v x) as [->|]; [|done]. pose proof (sle_below x u a Ha ltac:(done)) as H0'. cbn [count_occ] in H0'. rewrite H0'. lia.
  - assert (u = v) as -> by lia. cbn [count_occ]. rewrite IHa by done. destruct (Z.eq_dec v x); lia.
Qed.
Lemma inter_sub a b x : x ∈ set_intersection a b -> x ∈ a.
Proof.
  revert b. induction a as [|u a IHa]; intros b; [by destruct b|].
  induction b as [|v b IHb]; [rewrite set_intersection_nil_r; intros H; by apply elem_of_nil in H|].
  rewrite set_intersection_cons. destruct (Z.ltb_spec u v); [|destruct (Z.ltb_spec v u)].
  - intros Hx. right. by eapply IHa.
  - done.
  - intros [->|Hx]%elem_of_cons; [left|right; by eapply IHa].
Qed.
Lemma inter_sorted a b : SLe a -> SLe (set_intersection a b).
Proof.
  revert b. induction a as [|u a IHa]; intros b Ha; [destruct b; constructor|]. inversion Ha as [|? ? Ha' Hf]; subst.
  induction b as [|v b IHb]; [rewrite set_intersection_nil_r; constructor|].
  rewrite set_intersection_cons. destruct (Z.ltb_spec u v); [|destruct (Z.ltb_spec v u)]; [by apply IHa|done|].
  constructor; [by apply IHa|]. rewrite Forall_forall in *. intros x Hx. apply Hf. by eapply inter_sub.
Qed.

(** * The cells of a node *)
Lemma con_ge k cells n j : j ∈ cells_of_node k cells n -> k <= j < k + zlen cells.
Proof.
  revert k. induction cells as [|c cells IH]; intros k; cbn [cells_of_node]; [intros H; by apply elem_of_nil in H|]. rewrite zlen_cons. pose proof (zlen_nonneg cells).
  intros [Hj|Hj]%elem_of_app; [apply elem_of_replicate in Hj as [-> _]; lia|]. apply IH in Hj. lia.
Qed.
Lemma con_sorted k cells n : SLe (cells_of_node k cells n).
Proof.
  revert k. induction cells as [|c cells IH]; intros k; cbn [cells_of_node]; [constructor|].
  assert (H : forall m, SLe (replicate m k ++ cells_of_node (k + 1) cells n)); [|apply H].
  induction m as [|m IHm]; [apply IH|]. cbn. constructor; [done|]. rewrite Forall_forall. intros x [Hx|Hx]%elem_of_app; [apply elem_of_replicate in Hx as [-> _]; lia|]. apply con_ge in Hx. lia.
Qed.
Lemma con_count k (cells : list cell) n j (d : cell) : cells @ (j - k) = Some d -> cnt (cells_of_node k cells n) j = cnt d.2 n.
Proof.
  revert k. induction cells as [|c cells IH]; intros k H; [by rewrite zlook_nil in H|]. cbn [cells_of_node]. rewrite count_occ_app. rewrite zlook_cons in H.
  destruct (Z.eqb_spec (j - k) 0) as [E|E].
  - injection H as ->. assert (j = k) as -> by lia. rewrite (proj2 (cnt_notin (cells_of_node (k + 1) cells n) k)); [|intros Hx; apply con_ge in Hx; lia].
    rewrite Nat.add_0_r. clear IH. induction (cnt d.2 n) as [|m IHm]; [done|]. cbn [replicate count_occ]. destruct (Z.eq_dec k k); [lia|done].
  - rewrite (proj2 (cnt_notin (replicate _ k) j)); [|intros [-> _]%elem_of_replicate; lia]. apply IH. by replace (j - (k + 1)) with (j - k - 1) by lia.
Qed.

(** * From the first occurrence on *)
Lemma find_split (l : list Z) (p : Z -> bool) : (exists x, x ∈ l /\ p x = true) -> exists A x B, l = A ++ x :: B /\ p x = true /\ (forall y, y ∈ A -> p y = false) /\ find_if p l = zlen A.
Proof.
  induction l as [|y l IH]; intros (x & Hx & Hp); [by apply elem_of_nil in Hx|]. cbn [find_if]. destruct (p y) eqn:E.
  - exists [], y, l. split; [done|]. split; [done|]. split; [intros z Hz; by apply elem_of_nil in Hz|done].
  - destruct IH as (A & z & B & -> & Hz & HA & HF). { exists x. apply elem_of_cons in Hx as [->|Hx]; [congruence|done]. }
    exists (y :: A), z, B. split; [done|]. split; [done|]. split; [intros w [->|Hw]%elem_of_cons; auto|]. rewrite HF, zlen_cons. done.
Qed.
Lemma sle_app A B : SLe (A ++ B) -> SLe A /\ SLe B /\ forall x y, x ∈ A -> y ∈ B -> x <= y.
Proof.
  induction A as [|a A IH]; cbn [app]; intros H; [split; [constructor|]; split; [done|]; intros x y Hx; by apply elem_of_nil in Hx|].
  inversion H as [|? ? Hs Hf]; subst. apply IH in Hs as (H1 & H2 & H3). rewrite Forall_forall in Hf. split; [constructor; [done|]; rewrite Forall_forall; intros x Hx; apply Hf; apply elem_of_app; by left|].
  split; [done|]. intros x y [->|Hx]%elem_of_cons Hy; [apply Hf; apply elem_of_app; by right|by apply H3].
Qed.

Section Pool.
Context (cells : list cell) (conn connI rev revI : list Z) (nb : Z).
Hypothesis Hsky : skyline (pk <$> cells) conn connI.
Hypothesis Hrev : skyline (cells_of_node 0 cells <$> seqZ 0 nb) rev revI.
Hypothesis Hused : forall v, used cells v -> v < nb.
Hypothesis Hw : with_nodes cells.

Lemma node_pack n : 0 <= n < nb -> exists P R, rev = P ++ cells_of_node 0 cells n ++ R /\ rd revI n = Ok (zlen P) /\ rd revI (n + 1) = Ok (zlen P + zlen (cells_of_node 0 cells n)).
Proof.
  intros Hn. assert (Hp : (cells_of_node 0 cells <$> seqZ 0 nb) @ n = Some (cells_of_node 0 cells n)) by (rewrite zlook_fmap, zlook_seqZ by lia; done).
  destruct (sky_pack _ _ _ _ _ Hrev Hp) as (a & b & Ha & Hb & H0 & Hab & Hbl & Hsub). pose proof (f_equal zlen Hsub) as Hl. unfold sub in Hl, Hsub. rewrite zlen_take, zlen_drop in Hl.
  exists (take (Z.to_nat a) rev), (drop (Z.to_nat b) rev). assert (zlen (take (Z.to_nat a) rev) = a) as -> by (rewrite zlen_take; lia).
  split; [|split; [by apply rd_ok|apply rd_ok; rewrite Hb; f_equal; lia]]. rewrite Hsub.
  rewrite <- (take_drop (Z.to_nat a) rev) at 1. f_equal. rewrite <- (take_drop (Z.to_nat (b - a)) (drop (Z.to_nat a) rev)) at 1. f_equal. rewrite drop_drop. f_equal. lia.
Qed.

Definition from (b : bool) (i j : Z) : Prop := b = true -> i <= j.
(** What the cells of node [n], seen from cell [i], are. *)
Definition seen (b : bool) (i n : Z) (w : list Z) : Prop :=
  SLe w /\ (forall j, j ∈ w -> from b i j /\ 0 <= j < zlen cells) /\ forall j (d : cell), cells @ j = Some d -> from b i j -> cnt w j = cnt d.2 n.
Lemma cells_of_ok b i (c : cell) n : cells @ i = Some c -> n ∈ c.2 -> 0 <= n ->
  exists w, (let* lo := rd revI n in let* hi := rd revI (n + 1) in let* from := (if b : bool then findId rev lo hi i else Ok lo) in range rev from hi) = Ok w /\ seen b i n w.
Proof.
  intros Hc Hn H0. assert (Hnb : n < nb). { apply Hused. split; [done|]. exists c. split; [by eapply zlook_elem|done]. }
  destruct (node_pack n ltac:(lia)) as (P & R & E & E1 & E2). rewrite E1, E2. cbn [bind]. set (l := cells_of_node 0 cells n) in *.
  assert (Hs : SLe l) by apply con_sorted. assert (Hv : forall j, j ∈ l -> 0 <= j < zlen cells) by (intros j Hj; apply con_ge in Hj; lia).
  assert (Hcnt : forall j (d : cell), cells @ j = Some d -> cnt l j = cnt d.2 n) by (intros j d Hd; apply con_count; by rewrite Z.sub_0_r).
  destruct b.
  - unfold findId. rewrite E, range_mid. cbn [bind].
    assert (Hi : i ∈ l) by (apply cnt_in; rewrite (Hcnt i c Hc); by apply cnt_in).
    destruct (find_split l (fun w => w =? i)) as (A & x & B & El & Ex & HA & ->); [exists i; split; [done|lia]|]. assert (x = i) as -> by lia.
    exists (i :: B). rewrite El in *. split.
    + replace (P ++ (A ++ i :: B) ++ R) with ((P ++ A) ++ (i :: B) ++ R) by (rewrite <- !app_assoc; done).
      replace (zlen P + zlen A) with (zlen (P ++ A)) by (rewrite zlen_app; done). replace (zlen P + zlen (A ++ i :: B)) with (zlen (P ++ A) + zlen (i :: B)) by (rewrite !zlen_app; lia). apply range_mid.
    + apply sle_app in Hs as (HsA & HsB & HAB). split; [done|]. split.
      * intros j Hj. split; [|apply Hv; apply elem_of_app; by right]. intros _. inversion HsB as [|? ? _ Hf]; subst. apply elem_of_cons in Hj as [->|Hj]; [lia|]. rewrite Forall_forall in Hf. by apply Hf.
      * intros j d Hd Hf. rewrite <- (Hcnt j d Hd). rewrite count_occ_app. rewrite (proj2 (cnt_notin A j)); [done|]. intros Hj. specialize (Hf ltac:(done)). pose proof (HAB j i Hj ltac:(left)). pose proof (HA j Hj). lia.
  - exists l. cbn [bind]. rewrite E, range_mid. split; [done|]. split; [done|]. split; [intros j Hj; split; [done|by apply Hv]|]. intros j d Hd _. by apply Hcnt.
Qed.

(** The pool of cell [i]. *)
Definition pool (b : bool) (i : Z) (ns done : list Z) (v : list Z) : Prop :=
  SLe v /\ (forall j, j ∈ v -> from b i j /\ 0 <= j < zlen cells) /\
  (zlen v <= 1 \/ forall n j (d : cell), n ∈ done -> 0 <= n -> cells @ j = Some d -> (cnt v j <= cnt d.2 n)%nat) /\
  forall j (d : cell), cells @ j = Some d -> from b i j -> (forall n, n ∈ ns -> 0 <= n -> n ∈ d.2) -> j ∈ v.
Lemma candidates_ok b i (c : cell) : cells @ i = Some c -> exists v, candidatesOf false b conn connI rev revI i = Ok v /\ pool b i c.2 c.2 v.
Proof.
  intros Hc. destruct (cell_range _ _ _ _ _ Hsky Hc) as (a & A1 & A2 & _ & A4 & A5 & Ha). unfold candidatesOf. rewrite A1, A2. cbn [bind]. unfold findNotSep. rewrite A4. cbn [bind].
  destruct (Hw c) as [(n0 & Hn0 & Hn0') Hsep]; [by eapply zlook_elem|].
  destruct (find_split c.2 (fun v => negb (v =? -1))) as (A & n & B & En & Hn & HA & ->); [exists n0; split; [done|lia]|].
  assert (Hin : n ∈ c.2) by (rewrite En; apply elem_of_app; right; left). assert (Hn1 : 0 <= n) by (specialize (Hsep n Hin); lia).
  pose proof (f_equal zlen En) as El. rewrite zlen_app, zlen_cons in El. pose proof (zlen_nonneg A). pose proof (zlen_nonneg B).
  replace (a + 1 + zlen A =? a + 1 + zlen c.2) with false by lia.
  assert (En' : forall k v, B @ k = Some v -> rd conn (a + 1 + zlen A + 1 + k) = Ok v).
  { intros k v Hk. pose proof (zlook_Some_lt _ _ _ Hk). replace (a + 1 + zlen A + 1 + k) with (a + 1 + (zlen A + 1 + k)) by lia. apply A5. rewrite En, zlook_app_r by lia. rewrite zlook_cons. replace (zlen A + 1 + k - zlen A =? 0) with false by lia. rewrite <- Hk. f_equal. lia. }
  rewrite (A5 (zlen A) n) by (rewrite En, zlook_app_r by lia; by rewrite Z.sub_diag). cbn [bind].
  destruct (cells_of_ok b i c n Hc Hin Hn1) as (w0 & -> & Hs0 & Hv0 & Hc0). cbn [bind].
  assert (Hsep' : forall x, x ∈ A -> 0 <= x -> False) by (intros x Hx Hx0; specialize (HA x Hx); lia).
  apply wp_ok. apply (wp_forZ (fun k v => pool b i c.2 (A ++ n :: take (Z.to_nat (k - (a + 1 + zlen A + 1))) B) v)).
  - lia.
  - rewrite Z.sub_diag. cbn [take Z.to_nat]. split; [done|]. split; [done|]. split.
    + right. intros n' j d [Hx|Hx]%elem_of_app Hn' Hd; [by exfalso; eapply Hsep'|]. apply elem_of_list_singleton in Hx as ->.
      destruct (decide (j ∈ w0)) as [Hj|Hj]; [|apply cnt_notin in Hj; lia]. rewrite (Hc0 j d Hd); [lia|]. by apply Hv0.
    + intros j d Hd Hf Hall. apply cnt_in. rewrite (Hc0 j d Hd Hf). apply cnt_in. by apply Hall.
  - intros k v Hk (Hs & Hv & Hb & Hcomp). set (q := k - (a + 1 + zlen A + 1)) in *. destruct (zlook_lt B q) as [x Hx]; [lia|].
    assert (Et : take (Z.to_nat (k + 1 - (a + 1 + zlen A + 1))) B = take (Z.to_nat q) B ++ [x]).
    { replace (Z.to_nat (k + 1 - (a + 1 + zlen A + 1))) with (S (Z.to_nat q)) by lia. apply take_S_r. unfold zlook in Hx. by replace (q <? 0) with false in Hx by lia. }
    assert (Hd : forall y, y ∈ A ++ n :: take (Z.to_nat (k + 1 - (a + 1 + zlen A + 1))) B -> y ∈ A ++ n :: take (Z.to_nat q) B \/ y = x).
    { intros y. rewrite Et. rewrite !elem_of_app, !elem_of_cons, !elem_of_app, elem_of_list_singleton. tauto. }
    assert (Hskip : x < 0 \/ zlen v <= 1 -> pool b i c.2 (A ++ n :: take (Z.to_nat (k + 1 - (a + 1 + zlen A + 1))) B) v).
    { intros Hx0. split; [done|]. split; [done|]. split; [|done]. destruct Hb as [Hb|Hb]; [by left|]. destruct Hx0 as [Hx0|Hx0]; [right|by left].
      intros n' j d Hn' Hn0'' Hdj. apply Hd in Hn' as [Hn'| ->]; [by eapply Hb|lia]. }
    destruct (Z.ltb_spec 1 (zlen v)); [|cbn; apply Hskip; lia]. replace k with (a + 1 + zlen A + 1 + q) at 1 by lia. rewrite (En' q x Hx). cbn [bind].
    destruct (Z.leb_spec 0 x); [|cbn; apply Hskip; lia].
    assert (Hxin : x ∈ c.2) by (rewrite En; apply elem_of_app; right; right; by eapply zlook_elem).
    destruct (cells_of_ok b i c x Hc Hxin ltac:(done)) as (w & -> & Hsw & Hvw & Hcw). cbn [bind wp].
    split; [by apply inter_sorted|]. split; [intros j Hj; apply Hv; by eapply inter_sub|]. destruct Hb as [Hb|Hb]; [lia|]. split.
    + right. intros n' j d Hn' Hn0'' Hdj. rewrite inter_count by done. apply Hd in Hn' as [Hn'| ->]; [pose proof (Hb n' j d Hn' Hn0'' Hdj); lia|].
      destruct (decide (j ∈ w)) as [Hj|Hj]; [|apply cnt_notin in Hj; lia]. rewrite (Hcw j d Hdj); [lia|]. by apply Hvw.
    + intros j d Hdj Hf Hall. apply cnt_in. rewrite inter_count by done. rewrite (Hcw j d Hdj Hf). pose proof (Hcomp j d Hdj Hf Hall) as H3. apply cnt_in in H3. pose proof (Hall x Hxin ltac:(done)) as H4. apply cnt_in in H4. lia.
  - intros v. replace (Z.to_nat (a + 1 + zlen c.2 - (a + 1 + zlen A + 1))) with (length B) by (unfold zlen in *; lia). rewrite firstn_all. rewrite <- En. done.
Qed.
End Pool.
