(** Sharing of the pairs by removing duplicates. *)
From stdpp Require Import sorting.
From Coq Require Import ZifyBool ZifyNat.
From Verif Require Import Base OverModel OverSpec OverProofs.

Lemma at_imap {A B} (f : nat -> list A -> list B) l p : 0 <= p < zlen l -> at_ (imap f l) p = f (Z.to_nat p) (at_ l p).
Proof. intros H. apply at_look. unfold zlook. replace (p <? 0) with false by lia. rewrite list_lookup_imap. pose proof (at_some l p H) as E. unfold zlook in E. replace (p <? 0) with false in E by lia. by rewrite E. Qed.
Lemma zlen_imap {A B} (f : nat -> A -> B) l : zlen (imap f l) = zlen l.
Proof. unfold zlen. by rewrite imap_length. Qed.
Lemma at_out {A} (l : list (list A)) p : ~ 0 <= p < zlen l -> at_ l p = [].
Proof. intros H. unfold at_. replace (l @ p) with (@None (list A)); [done|]. symmetry. apply zlook_None. lia. Qed.
Lemma sum_list_with_app_ (a b : list nat) : sum_list (a ++ b) = (sum_list a + sum_list b)%nat.
Proof. apply sum_list_with_app. Qed.
Lemma sum_zset (l : list (list (couple * Z))) p m : 0 <= p < zlen l -> (sum_list (length <$> zset l p m) + length (at_ l p) = sum_list (length <$> l) + length m)%nat.
Proof.
  intros H. pose proof (at_some l p H) as E. generalize dependent (at_ l p). intros a E. rewrite zlook_to_nat in E by lia. unfold zset. pose proof (lookup_lt_Some _ _ _ E) as Hlt. rewrite insert_take_drop by done.
  rewrite <- (take_drop_middle l (Z.to_nat p) a E) at 3. rewrite !fmap_app, !fmap_cons, !sum_list_with_app_. cbn. lia.
Qed.
Lemma sum_imap (f : nat -> list (couple * Z) -> list (couple * Z)) l : (forall i m, length (f i m) = length m) -> sum_list (length <$> imap f l) = sum_list (length <$> l).
Proof. revert f. induction l as [|x l IH]; intros f Hf; [done|]. cbn [imap]. rewrite !fmap_cons. cbn. rewrite Hf. f_equal. apply IH. intros i m. apply (Hf (S i)). Qed.

Lemma mostLoaded_ok n fs valid : 0 <= n -> let r := mostLoaded n fs valid in
  (r = (-1, -1) /\ forall p, 0 <= p < n -> valid @ p <> Some true) \/ (0 <= r.2 < n /\ valid @ r.2 = Some true /\ r.1 = zlen (at_ fs r.2)).
Proof.
  intros Hn. cbn zeta. unfold mostLoaded.
  assert (G : forall l : list Z, (forall p, p ∈ l -> 0 <= p < n) -> let r := foldl (fun '(sz, id) p => if default false (valid @ p) && (sz <? zlen (at_ fs p)) then (zlen (at_ fs p), p) else (sz, id)) (-1, -1) l in
    (r = (-1, -1) /\ forall p, p ∈ l -> valid @ p <> Some true) \/ (0 <= r.2 < n /\ valid @ r.2 = Some true /\ r.1 = zlen (at_ fs r.2))).
  { intros l Hl. cbn zeta. apply (foldl_ind (fun pre (r : Z * Z) => (r = (-1, -1) /\ forall p, p ∈ pre -> valid @ p <> Some true) \/ (0 <= r.2 < n /\ valid @ r.2 = Some true /\ r.1 = zlen (at_ fs r.2)))).
    - left. split; [done|]. by intros p ?%elem_of_nil.
    - intros pre p post [sz id] E IH. assert (Hp : 0 <= p < n) by (apply Hl; rewrite E; apply elem_of_app; right; left). cbn [fst snd] in IH.
      destruct (valid @ p) as [[|]|] eqn:Ev; cbn [default andb].
      + unfold Datatypes.id. cbn [andb]. destruct (Z.ltb_spec sz (zlen (at_ fs p))); [right; done|]. destruct IH as [[[= -> ->] _]|IH]; [pose proof (zlen_nonneg (at_ fs p)); lia|by right].
      + destruct IH as [[[= -> ->] IH]|IH]; [left; split; [done|]|by right]. intros q [Hq| ->%elem_of_list_singleton]%elem_of_app; [by apply IH|congruence].
      + destruct IH as [[[= -> ->] IH]|IH]; [left; split; [done|]|by right]. intros q [Hq| ->%elem_of_list_singleton]%elem_of_app; [by apply IH|congruence]. }
  destruct (G (seqZ 0 n)) as [[H1 H2]|H]; [intros p Hp%elem_of_seqZ; lia| |by right]. left. split; [done|]. intros p Hp. apply H2, elem_of_seqZ. lia.
Qed.
Lemma leastLoaded_ok rev m : (forall c v, (c, v) ∈ m -> 0 <= c.1) -> let r := leastLoaded rev m in
  (r.1 = (-1, -1) /\ forall c v, (c, v) ∈ m -> infinity <= v) \/ ((r.1, r.2) ∈ m /\ r.2 < infinity).
Proof.
  intros H0. cbn zeta. unfold leastLoaded. set (L := if rev then reverse m else m). assert (HL : forall e, e ∈ L <-> e ∈ m) by (intros e; unfold L; destruct rev; [apply elem_of_reverse|done]).
  assert (G : let r := foldl (fun '(hit, mn) (e : couple * Z) => if e.2 <? mn then (e.1, e.2) else (hit, mn)) ((-1, -1), infinity) L in
    (r = ((-1, -1), infinity) /\ forall e, e ∈ L -> infinity <= e.2) \/ (r ∈ L /\ r.2 < infinity)).
  { cbn zeta. apply (foldl_ind (fun pre (r : couple * Z) => (r = ((-1, -1), infinity) /\ forall e, e ∈ pre -> infinity <= e.2) \/ (r ∈ L /\ r.2 < infinity))).
    - left. split; [done|]. by intros e ?%elem_of_nil.
    - intros pre [c v] post [hit mn] E IH. assert (Hin : (c, v) ∈ L) by (rewrite E; apply elem_of_app; right; left). cbn [fst snd] in *.
      destruct (Z.ltb_spec v mn) as [Hlt|Hge].
      + right. split; [done|]. destruct IH as [[[= -> ->] _]|[_ ?]]; cbn [snd] in *; lia.
      + destruct IH as [[[= -> ->] IH]|IH]; [left|by right]. split; [done|]. intros e [He| ->%elem_of_list_singleton]%elem_of_app; [by apply IH|done]. }
  cbn zeta in G. destruct (foldl _ _ L) as [hit mn]. cbn [fst snd] in *. destruct G as [[[= -> ->] G]|[G1 G2]].
  - left. split; [done|]. intros c v Hc. apply HL in Hc. by apply G in Hc.
  - right. split; [by apply HL|done].
Qed.

Section New.
Context (n : Z) (Hn : 0 <= n) (Hsmall : 2 * n < infinity) (inter : Z -> Z -> bool).
Definition inv (st : list (list (couple * Z)) * list bool) : Prop :=
  zlen st.1 = n /\ zlen st.2 = n /\ (forall p, mord (at_ st.1 p)) /\
  (forall p c v, (c, v) ∈ at_ st.1 p -> interact n inter c /\ (p = c.1 \/ p = c.2)) /\
  (forall c, interact n inter c -> c.1 = c.2 -> (c, infinity) ∈ at_ st.1 c.1) /\
  (forall c, interact n inter c -> c.1 <> c.2 ->
    (exists v1 v2, (c, v1) ∈ at_ st.1 c.1 /\ (c, v2) ∈ at_ st.1 c.2 /\ v1 < infinity /\ v2 < infinity) \/
    ((c, infinity) ∈ at_ st.1 c.1 /\ forall v, (c, v) ∉ at_ st.1 c.2) \/ ((c, infinity) ∈ at_ st.1 c.2 /\ forall v, (c, v) ∉ at_ st.1 c.1)) /\
  (forall p c v, st.2 @ p = Some false -> (c, v) ∈ at_ st.1 p -> v = infinity).
Definition size (st : list (list (couple * Z)) * list bool) : nat := (sum_list (length <$> st.1) + length (filter (fun b => Is_true b) st.2))%nat.

Lemma value fs valid p c v : inv (fs, valid) -> (c, v) ∈ at_ fs p -> v = infinity \/ v < infinity /\ c.1 <> c.2 /\ exists v1 v2, (c, v1) ∈ at_ fs c.1 /\ (c, v2) ∈ at_ fs c.2 /\ v1 < infinity /\ v2 < infinity.
Proof.
  intros (I1 & I2 & I3 & I4 & I5 & I6 & I7) Hc. cbn [fst snd] in *. destruct (I4 p c v Hc) as [Hin Hp]. destruct (decide (c.1 = c.2)) as [E|E].
  - left. assert (p = c.1) as -> by lia. apply (mord_fun (at_ fs c.1) c); auto.
  - destruct (I6 c Hin E) as [(v1 & v2 & H1 & H2 & L1 & L2)|[[H1 H2]|[H1 H2]]].
    + right. destruct Hp as [->| ->]; [assert (v = v1) as -> by (by eapply mord_fun)|assert (v = v2) as -> by (by eapply mord_fun)]; eauto 10.
    + left. destruct Hp as [->| ->]; [by eapply mord_fun|by destruct (H2 v)].
    + left. destruct Hp as [->| ->]; [by destruct (H2 v)|by eapply mord_fun].
Qed.
Lemma lessLoad_elem mx valid fs p c v : zlen valid = zlen fs -> (c, v) ∈ at_ (lessLoad mx valid fs) p <-> exists v0, (c, v0) ∈ at_ fs p /\
  v = if default false (valid @ p) && negb (p =? mx) && negb (v0 =? infinity) && ((c.1 =? mx) || (c.2 =? mx)) then v0 - 1 else v0.
Proof.
  intros Hl. destruct (decide (0 <= p < zlen fs)) as [Hp|Hp].
  2: { rewrite !at_out; [|done|unfold lessLoad; by rewrite zlen_imap]. setoid_rewrite elem_of_nil. split; [done|intros (? & [] & _)]. }
  unfold lessLoad. rewrite at_imap by done. replace (Z.of_nat (Z.to_nat p)) with p by lia. destruct (default false (valid @ p) && negb (p =? mx)); cbn [andb].
  - rewrite elem_of_list_fmap. split.
    + intros ([c0 v0] & E & Hin). cbn [fst snd] in E. destruct (v0 =? infinity) eqn:E1; cbn [negb andb]; [injection E as -> ->; exists v0; by rewrite E1|].
      destruct ((c0.1 =? mx) || (c0.2 =? mx)) eqn:E2; injection E as -> ->; exists v0; rewrite E1; cbn [negb andb]; by rewrite E2.
    + intros (v0 & Hin & ->). exists (c, v0). split; [|done]. cbn [fst snd]. by destruct (v0 =? infinity), ((c.1 =? mx) || (c.2 =? mx)).
  - split; [intros H; by exists v|]. by intros (v0 & H & ->).
Qed.
Lemma lessLoad_keys mx valid fs p : (at_ (lessLoad mx valid fs) p).*1 = (at_ fs p).*1.
Proof.
  destruct (decide (0 <= p < zlen fs)) as [Hp|Hp]; [|by rewrite !at_out by (unfold lessLoad; rewrite ?zlen_imap; done)].
  unfold lessLoad. rewrite at_imap by done. destruct (_ && _); [|done]. rewrite <- list_fmap_compose. apply list_fmap_ext. intros i [c v] _. unfold compose. cbn [fst snd]. destruct (v =? infinity); [done|]. by destruct ((c.1 =? mx) || (c.2 =? mx)).
Qed.
Lemma filter_false valid p : valid @ p = Some true -> (length (filter (fun b => Is_true b) (zset valid p false)) < length (filter (fun b => Is_true b) valid))%nat.
Proof.
  intros H. apply zlook_Some_lt in H as Hp. rewrite zlook_to_nat in H by lia. unfold zset. pose proof (lookup_lt_Some _ _ _ H) as Hlt. rewrite insert_take_drop by done.
  rewrite <- (take_drop_middle valid (Z.to_nat p) true H) at 3. rewrite !filter_app, !filter_cons, !app_length. destruct (decide (Is_true false)); [done|]. destruct (decide (Is_true true)) as [_|Hx]; [cbn [length]; lia|by destruct Hx].
Qed.
Lemma removeOne_ok rev st : inv st -> existsb (fun b => b) st.2 = true -> wp (removeOne n rev st) (fun st' => inv st' /\ (size st' < size st)%nat) False.
Proof using Hn.
  destruct st as [fs valid]. intros Hinv Hex. pose proof Hinv as (I1 & I2 & I3 & I4 & I5 & I6 & I7). cbn [fst snd] in *. unfold removeOne.
  pose proof (mostLoaded_ok n fs valid Hn) as Hm. cbn zeta in Hm. destruct (mostLoaded n fs valid) as [sz mx]. cbn [fst snd] in Hm. destruct Hm as [[_ Hm]|(Hmx & Hv & Hsz)].
  { exfalso. apply existsb_exists in Hex as ([|] & Hb & E); [|done]. apply elem_of_list_In, elem_of_zlook in Hb as (p & Hp). apply (Hm p); [|done]. apply zlook_Some_lt in Hp. lia. }
  replace (sz =? -1) with false by (pose proof (zlen_nonneg (at_ fs mx)); lia).
  pose proof (leastLoaded_ok rev (at_ fs mx)) as Hl. cbn zeta in Hl. destruct (leastLoaded rev (at_ fs mx)) as [hit mn]. cbn [fst snd] in Hl.
  destruct Hl as [[-> Hl]|[Hl Hlt]]; [intros c v Hc; apply I4 in Hc as [(? & _) _]; lia| |].
  - cbn [fst]. replace (-1 =? -1) with true by lia. cbn [wp]. split; [|unfold size; cbn [fst snd]; pose proof (filter_false valid mx Hv); lia].
    split; [done|]. cbn [fst snd]. split; [by rewrite zlen_zset|]. do 4 (split; [done|]). intros p c v Hp Hc. rewrite zlook_zset in Hp by lia. destruct (Z.eqb_spec p mx) as [->|_]; [|by eapply I7].
    destruct (value fs valid mx c v Hinv Hc) as [?|[? _]]; [done|]. apply Hl in Hc. lia.
  - destruct (I4 mx hit mn Hl) as [(Hh1 & Hh2 & Hi) Hside]. replace (hit.1 =? -1) with false by lia. cbn [wp].
    destruct (value fs valid mx hit mn Hinv Hl) as [?|(_ & Hne & v1 & v2 & V1 & V2 & W1 & W2)]; [lia|].
    set (oth := if hit.1 =? mx then hit.2 else hit.1). assert (Ho : 0 <= oth < n /\ oth <> mx /\ (oth = hit.1 /\ mx = hit.2 \/ oth = hit.2 /\ mx = hit.1)) by (unfold oth; destruct (Z.eqb_spec hit.1 mx); lia).
    destruct Ho as (Ho & Hom & Hoo). assert (Hoin : exists v, (hit, v) ∈ at_ fs oth) by (destruct Hoo as [[-> _]|[-> _]]; eauto). destruct Hoin as (ov & Hov).
    set (fs1 := atProc (mdel hit) mx fs). set (fs2 := atProc (mput hit infinity) oth fs1).
    assert (L1 : zlen fs1 = n) by (unfold fs1, atProc; by rewrite zlen_zset). assert (L2 : zlen fs2 = n) by (unfold fs2, atProc; by rewrite zlen_zset).
    assert (A1 : forall p, at_ fs1 p = if p =? mx then mdel hit (at_ fs mx) else at_ fs p) by (intros p; unfold fs1, atProc; rewrite at_zset by lia; done).
    assert (A2 : forall p, at_ fs2 p = if p =? oth then mput hit infinity (at_ fs oth) else if p =? mx then mdel hit (at_ fs mx) else at_ fs p).
    { intros p. unfold fs2, atProc. rewrite at_zset by lia. rewrite !A1. replace (oth =? mx) with false by lia. done. }
    assert (O2 : forall p, mord (at_ fs2 p)). { intros p. rewrite A2. destruct (p =? oth); [by apply mord_mput|]. destruct (p =? mx); [by apply mord_mdel|done]. }
    assert (E2 : forall p c v, (c, v) ∈ at_ fs2 p <-> (c <> hit /\ (c, v) ∈ at_ fs p) \/ (c = hit /\ p = oth /\ v = infinity)).
    { intros p c v. rewrite A2. destruct (Z.eqb_spec p oth) as [->|Hpo]; [rewrite mput_elem by done; tauto|]. destruct (Z.eqb_spec p mx) as [->|Hpm]; [rewrite mdel_elem; split; [tauto|]; intros [?|(_ & ? & _)]; [done|lia]|].
      split; [|intros [[_ ?]|(_ & ? & _)]; [done|lia]]. intros Hc. left. split; [|done]. intros ->. apply I4 in Hc as [_ Hc]. lia. }
    assert (Hlv : zlen valid = zlen fs2) by lia.
    set (fs3 := lessLoad mx valid fs2).
    assert (E3 : forall p c, (exists v, (c, v) ∈ at_ fs3 p) <-> exists v, (c, v) ∈ at_ fs2 p).
    { intros p c. split; [intros (v & (v0 & ? & _)%lessLoad_elem); [eauto|done]|]. intros (v & Hc). eexists. apply lessLoad_elem; [done|]. eauto. }
    assert (E3i : forall p c, (c, infinity) ∈ at_ fs2 p -> (c, infinity) ∈ at_ fs3 p). { intros p c Hc. apply lessLoad_elem; [done|]. exists infinity. split; [done|]. rewrite Z.eqb_refl. cbn [negb]. by rewrite andb_false_r. }
    assert (E3l : forall p c v, (c, v) ∈ at_ fs2 p -> v < infinity -> exists v', (c, v') ∈ at_ fs3 p /\ v' < infinity). { intros p c v Hc Hv'. eexists. split; [apply lessLoad_elem; [done|]; eauto|]. destruct (_ && _); lia. }
    split.
    + split; [unfold fs3, lessLoad; cbn [fst]; by rewrite zlen_imap|]. cbn [fst snd]. split; [done|]. split; [intros p; eapply mord_keys; [symmetry; apply lessLoad_keys|done]|]. split; [|split; [|split]].
      * intros p c v Hc. assert (Hc' : exists v, (c, v) ∈ at_ fs2 p) by (apply E3; eauto). destruct Hc' as (v' & [[_ Hc']|(-> & -> & ->)]%E2); [by eapply I4|]. split; [done|]. lia.
      * intros c Hc Heq. apply E3i, E2. left. split; [intros ->; done|by apply I5].
      * intros c Hc Hcne. destruct (decide (c = hit)) as [->|Hch].
        -- right. assert (Hno : forall v, (hit, v) ∉ at_ fs3 mx). { intros v Hx. assert (Hx' : exists v, (hit, v) ∈ at_ fs2 mx) by (apply E3; eauto). destruct Hx' as (v' & [[? _]|(_ & ? & _)]%E2); [done|lia]. }
           assert (Hyes : (hit, infinity) ∈ at_ fs3 oth) by (apply E3i, E2; by right). destruct Hoo as [[E E']|[E E']]; rewrite E in Hyes; rewrite E' in Hno; tauto.
        -- assert (Hsame : forall p v, (c, v) ∈ at_ fs2 p <-> (c, v) ∈ at_ fs p) by (intros p v; rewrite E2; tauto).
           assert (Hnone : forall p, (forall v, (c, v) ∉ at_ fs p) -> forall v, (c, v) ∉ at_ fs3 p). { intros p Hp v Hx. assert (Hx' : exists v, (c, v) ∈ at_ fs2 p) by (apply E3; eauto). destruct Hx' as (v' & Hx'). apply Hsame in Hx'. by apply Hp in Hx'. }
           destruct (I6 c Hc Hcne) as [(u1 & u2 & U1 & U2 & X1 & X2)|[[U1 U2]|[U1 U2]]].
           ++ left. apply Hsame in U1, U2. destruct (E3l _ _ _ U1 X1) as (w1 & ? & ?), (E3l _ _ _ U2 X2) as (w2 & ? & ?). eauto 8.
           ++ right. left. split; [apply E3i; by apply Hsame|by apply Hnone].
           ++ right. right. split; [apply E3i; by apply Hsame|by apply Hnone].
      * intros p c v Hp Hc. apply lessLoad_elem in Hc as (v0 & Hc & ->); [|done]. rewrite Hp. cbn [default]. unfold Datatypes.id. cbn [andb]. apply E2 in Hc as [[_ Hc]|(_ & _ & ->)]; [by eapply I7|done].
    + unfold size. cbn [fst snd]. apply Nat.add_lt_mono_r. unfold fs3, lessLoad. rewrite sum_imap by (intros i m; destruct (_ && _); [by rewrite fmap_length|done]).
      assert (Hs2 : (sum_list (length <$> fs2) + length (at_ fs1 oth) = sum_list (length <$> fs1) + length (mput hit infinity (at_ fs1 oth)))%nat) by (apply sum_zset; lia).
      assert (Hs1 : (sum_list (length <$> fs1) + length (at_ fs mx) = sum_list (length <$> fs) + length (mdel hit (at_ fs mx)))%nat) by (apply sum_zset; lia).
      rewrite A1 in Hs2. replace (oth =? mx) with false in Hs2 by lia. rewrite (mput_len hit infinity (at_ fs oth) ov) in Hs2 by done. pose proof (mdel_len hit (at_ fs mx) mn Hl). lia.
Qed.
(** The beginning. *)
Lemma bothSides_ok : let fs := bothSides n (procPairs n inter) in zlen fs = n /\ (forall p, mord (at_ fs p)) /\ forall p c, (exists v, (c, v) ∈ at_ fs p) <-> interact n inter c /\ (p = c.1 \/ p = c.2).
Proof using Hn.
  cbn zeta. unfold bothSides. rewrite (fold_nest (fun fs i j => atProc (mput (i, j) (-1)) j (atProc (mput (i, j) (-1)) i fs))). fold (allc n inter).
  enough (G : zlen (foldl (fun s (c : couple) => atProc (mput (c.1, c.2) (-1)) c.2 (atProc (mput (c.1, c.2) (-1)) c.1 s)) (replicate (Z.to_nat n) []) (allc n inter)) = n /\
    (forall p, mord (at_ (foldl (fun s (c : couple) => atProc (mput (c.1, c.2) (-1)) c.2 (atProc (mput (c.1, c.2) (-1)) c.1 s)) (replicate (Z.to_nat n) []) (allc n inter)) p)) /\
    forall p c, (exists v, (c, v) ∈ at_ (foldl (fun s (c : couple) => atProc (mput (c.1, c.2) (-1)) c.2 (atProc (mput (c.1, c.2) (-1)) c.1 s)) (replicate (Z.to_nat n) []) (allc n inter)) p) <-> c ∈ allc n inter /\ (p = c.1 \/ p = c.2)).
  { destruct G as (G1 & G2 & G3). split; [exact G1|]. split; [exact G2|]. intros p c. rewrite <- (allc_iff n Hn). apply G3. }
  apply (foldl_ind (fun pre fs => zlen fs = n /\ (forall p, mord (at_ fs p)) /\ forall p c, (exists v, (c, v) ∈ at_ fs p) <-> c ∈ pre /\ (p = c.1 \/ p = c.2))).
  - split; [by apply zlen_replicate'|]. split; [intros p; rewrite at_replicate; constructor|]. intros p c. rewrite at_replicate. setoid_rewrite elem_of_nil. split; [by intros [_ []]|by intros [[] _]].
  - intros pre [i j] post fs E (I1 & I2 & I3). cbn [fst snd]. change (allc n inter = pre ++ (i, j) :: post) in E. assert (Hin : interact n inter (i, j)) by (apply (allc_iff n Hn); rewrite E; apply elem_of_app; right; left). destruct Hin as (Hi & Hj & _). cbn [fst snd] in *.
    assert (Hone : forall fs q, zlen fs = n -> (forall p, mord (at_ fs p)) -> 0 <= q < n -> let fs' := atProc (mput (i, j) (-1)) q fs in zlen fs' = n /\ (forall p, mord (at_ fs' p)) /\ forall p c, (exists v, (c, v) ∈ at_ fs' p) <-> (exists v, (c, v) ∈ at_ fs p) \/ c = (i, j) /\ p = q).
    { clear -Hn. intros fs q L O Hq. cbn zeta. unfold atProc. split; [by rewrite zlen_zset|]. split; [intros p; rewrite at_zset by lia; destruct (p =? q); [by apply mord_mput|done]|].
      intros p c. rewrite at_zset by lia. destruct (Z.eqb_spec p q) as [->|Hpq]; [|split; [tauto|intros [?|[_ ?]]; [done|lia]]]. split.
      - intros (v & [[-> _]|[_ ?]]%mput_elem); [by right|left; eauto|done].
      - destruct (decide (c = (i, j))) as [->|Hc]; [intros _; exists (-1); apply mput_elem; [done|]; by left|]. intros [(v & Hv)|[? _]]; [|done]. exists v. apply mput_elem; [done|]. tauto. }
    destruct (Hone fs i I1 I2 Hi) as (K1 & K2 & K3). destruct (Hone _ j K1 K2 Hj) as (M1 & M2 & M3). split; [done|]. split; [done|].
    intros p c. rewrite M3, K3, I3, elem_of_app, elem_of_list_singleton. split; [intros [[[? ?]|[-> ->]]|[-> ->]]; cbn [fst snd]; tauto|]. intros [[?| ->] ?]; cbn [fst snd] in *; tauto.
Qed.
Lemma size_bound p : zlen (at_ (bothSides n (procPairs n inter)) p) < infinity.
Proof using Hn Hsmall.
  destruct bothSides_ok as (B1 & B2 & B3). assert (Hs : (at_ (bothSides n (procPairs n inter)) p).*1 ⊆+ ((fun j => (p, j)) <$> seqZ 0 n) ++ ((fun j => (j, p)) <$> seqZ 0 n)).
  { apply NoDup_submseteq; [by apply mord_nodup|]. intros c ([c' v] & -> & Hc)%elem_of_list_fmap. cbn [fst]. assert (Hx : interact n inter c' /\ (p = c'.1 \/ p = c'.2)) by (apply B3; eauto).
    destruct Hx as [(H1 & H2 & _) H3]. destruct c' as [a b]. cbn [fst snd] in *. rewrite elem_of_app, !elem_of_list_fmap. destruct H3 as [->| ->]; [left; exists b|right; exists a]; (split; [done|apply elem_of_seqZ; lia]). }
  apply submseteq_length in Hs. rewrite app_length, !fmap_length, seqZ_length in Hs. unfold zlen. lia.
Qed.
Lemma loads_inv : inv (loads (bothSides n (procPairs n inter)), replicate (Z.to_nat n) true).
Proof using Hn Hsmall.
  destruct bothSides_ok as (B1 & B2 & B3). pose proof size_bound as Hb. set (fs := bothSides n (procPairs n inter)) in *.
  assert (Hk : forall p, (at_ (loads fs) p).*1 = (at_ fs p).*1).
  { intros p. destruct (decide (0 <= p < zlen fs)) as [Hp|Hp]; [|by rewrite !at_out by (unfold loads; rewrite ?zlen_imap; done)]. unfold loads. rewrite at_imap by done. rewrite <- list_fmap_compose. by apply list_fmap_ext. }
  assert (He : forall p c v, (c, v) ∈ at_ (loads fs) p -> (exists v0, (c, v0) ∈ at_ fs p) /\ v = if c.1 =? c.2 then infinity else if c.1 =? p then zlen (at_ fs c.2) else zlen (at_ fs c.1)).
  { intros p c v Hc. assert (Hp : 0 <= p < zlen fs). { apply at_range in Hc as [Hc _]. unfold loads in Hc. by rewrite zlen_imap in Hc. }
    unfold loads in Hc. rewrite at_imap in Hc by done. apply elem_of_list_fmap in Hc as ([c0 v0] & [= -> ->] & Hc). cbn [fst]. split; [eauto|]. by replace (Z.of_nat (Z.to_nat p)) with p by lia. }
  assert (Hx : forall p c, interact n inter c -> p = c.1 \/ p = c.2 -> exists v, (c, v) ∈ at_ (loads fs) p).
  { intros p c Hc Hp. assert (Hin : c ∈ (at_ (loads fs) p).*1). { rewrite Hk. assert (H : exists v, (c, v) ∈ at_ fs p) by (by apply B3). destruct H as (v & Hv). apply elem_of_list_fmap. by exists (c, v). }
    apply elem_of_list_fmap in Hin as ([c' v] & -> & ?). eauto. }
  split; [unfold loads; cbn [fst]; by rewrite zlen_imap|]. cbn [fst snd]. split; [by apply zlen_replicate'|]. split; [intros p; eapply mord_keys; [symmetry; apply Hk|done]|]. split; [|split; [|split]].
  - intros p c v [H _]%He. by apply B3.
  - intros c Hc E. destruct (Hx c.1 c Hc) as (v & Hv); [by left|]. pose proof Hv as [_ ->]%He. by replace (c.1 =? c.2) with true in Hv by lia.
  - intros c Hc E. left. destruct (Hx c.1 c Hc) as (v1 & Hv1); [by left|]. destruct (Hx c.2 c Hc) as (v2 & Hv2); [by right|]. exists v1, v2. split; [done|]. split; [done|].
    apply He in Hv1 as [_ ->], Hv2 as [_ ->]. pose proof (Hb c.1). pose proof (Hb c.2). replace (c.1 =? c.2) with false by lia. rewrite Z.eqb_refl. done.
  - intros p c v Hp. unfold zlook in Hp. destruct (p <? 0); [done|]. apply lookup_replicate in Hp as [? _]. done.
Qed.
Theorem new_ok rev : exists todo, computeTodoList_new n rev (procPairs n inter) = Ok todo /\ shared n inter todo.
Proof using Hn Hsmall.
  enough (W : wp (computeTodoList_new n rev (procPairs n inter)) (shared n inter) False). { destruct (computeTodoList_new _ _ _) as [t| | |]; cbn [wp] in W; [eauto|done..]. }
  unfold computeTodoList_new. cbn zeta. apply wp_bind. eapply (wp_whileM inv size).
  - exact loads_inv.
  - unfold size. cbn [fst snd]. assert (Hf : (length (filter (fun b => Is_true b) (replicate (Z.to_nat n) true)) <= Z.to_nat n)%nat) by (etransitivity; [apply filter_length|by rewrite replicate_length]). lia.
  - intros st Hst. cbn [wp]. destruct (existsb (fun b => b) st.2) eqn:Ex; [by apply removeOne_ok|]. destruct st as [fs valid]. pose proof Hst as (I1 & I2 & I3 & I4 & I5 & I6 & I7). cbn [fst snd wp] in *.
    assert (Hinf : forall p c v, (c, v) ∈ at_ fs p -> v = infinity).
    { intros p c v Hc. apply (I7 p c v); [|done]. pose proof (at_range fs p _ Hc) as [Hp _]. destruct (zlook_lt valid p) as [b Hb]; [lia|]. rewrite Hb. destruct b; [|done]. exfalso.
      assert (existsb (fun b => b) valid = true) by (apply existsb_exists; exists true; split; [apply elem_of_list_In, elem_of_zlook; eauto|done]). congruence. }
    assert (Hat : forall p, at_ ((fun m : list (couple * Z) => m.*1) <$> fs) p = (at_ fs p).*1) by (intros p; unfold at_; rewrite zlook_fmap; by destruct (fs @ p)).
    assert (Hel : forall p c, c ∈ at_ ((fun m : list (couple * Z) => m.*1) <$> fs) p <-> (c, infinity) ∈ at_ fs p).
    { intros p c. rewrite Hat, elem_of_list_fmap. split; [intros ([c' v] & -> & Hc); by rewrite <- (Hinf _ _ _ Hc)|]. intros H. by exists (c, infinity). }
    apply (owned_shared n inter (allc n inter)); [by apply allc_iff|]. split; [by rewrite zlen_fmap|]. split; [intros p; rewrite Hat; by apply mord_nodup|]. split; [|split].
    + intros p c Hc. apply Hel, I4 in Hc. by rewrite allc_iff.
    + intros c Hc. apply allc_iff in Hc; [|done]. destruct (decide (c.1 = c.2)) as [E|E]; [exists c.1; apply Hel; by apply I5|].
      destruct (I6 c Hc E) as [(v1 & v2 & V1 & _ & V2 & _)|[[V1 _]|[V1 _]]]; [apply Hinf in V1; lia|exists c.1; by apply Hel|exists c.2; by apply Hel].
    + intros c p p' Hp Hp'. apply Hel in Hp, Hp'. destruct (I4 _ _ _ Hp) as [Hc S1], (I4 _ _ _ Hp') as [_ S2]. destruct (decide (c.1 = c.2)) as [E|E]; [lia|].
      destruct (I6 c Hc E) as [(v1 & v2 & V1 & _ & V2 & _)|[[V1 V2]|[V1 V2]]]; [apply Hinf in V1; lia|..]; destruct S1 as [->| ->], S2 as [->| ->]; try done; exfalso; first [by eapply V2|done].
Qed.
End New.
Theorem todo_ok algo n inter : 0 <= algo <= 2 -> 0 <= n -> 2 * n < infinity -> exists todo, todoLists algo n inter = Ok todo /\ shared n inter todo.
Proof.
  intros Ha Hn Hs. unfold todoLists. destruct (Z.eqb_spec algo 0); [eexists; split; [done|by apply original_ok]|]. destruct (Z.eqb_spec algo 1); [by apply new_ok|]. replace (algo =? 2) with true by lia. by apply new_ok.
Qed.
Lemma todo_throw algo n inter : ~ 0 <= algo <= 2 -> todoLists algo n inter = Throw.
Proof. intros H. unfold todoLists. by replace (algo =? 0) with false by lia; replace (algo =? 1) with false by lia; replace (algo =? 2) with false by lia. Qed.
