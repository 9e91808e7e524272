From Coq Require Import ZifyBool ZifyNat.
From Verif Require Import Base DataArray ArrLib SlicesModel SlicesSpec SlicesProofs SetModel SetSpec SetProofs SetProofs2.

(** ** Whole tuples. *)
Lemma copy_cols {A} (v : list A) s nc t p cols : (forall l, srcVals s l = v) -> (forall c, c ∈ cols -> 0 <= c < nc /\ 0 <= p + c < zlen v) -> 0 <= t -> forall l, t * nc + nc <= zlen l ->
  exists l', each (fun j l => assign (t * nc + j) (rd (srcVals s l) (p + j)) l) cols l = (Ok tt, l') /\
    row_written nc t cols (fun i => match cols @ i with Some c => v @ (p + c) | None => None end) l l'.
Proof.
  intros Hs HC Ht. induction cols as [|c cols IH]; intros l Hl; [exists l; split; [done|apply row_nil]|]. cbn [each]. rewrite Hs.
  destruct (HC c (elem_of_list_here _ _)) as [B1 B2]. destruct (zlook_lt v (p + c)) as [x Hx]; [lia|]. assert (0 <= t * nc + c < zlen l) by nia.
  rewrite (rd_ok _ _ x Hx), assign_ok by done. destruct (IH (fun d Hd => HC d (elem_of_list_further _ _ _ Hd)) (zset l (t * nc + c) x)) as (l' & E & W); [by rewrite zlen_zset|].
  exists l'. split; [exact E|]. apply (row_cons _ _ _ _ _ _ x); [done|done|]. destruct W as (W1 & W2 & W3). split; [done|]. split; [|done].
  intros j d Hj Lj. rewrite (W2 j d Hj Lj). pose proof (zlook_Some_lt _ _ _ Hj). rewrite zlook_cons. replace (j + 1 =? 0) with false by lia. replace (j + 1 - 1) with j by lia. done.
Qed.
Lemma copyTuple_ok {A} (v : list A) s nc t p q l : (forall l, srcVals s l = v) -> q = t * nc -> 0 <= t -> 0 <= nc -> 0 <= p -> p + nc <= zlen v -> t * nc + nc <= zlen l ->
  exists l', copyTuple s nc p q l = (Ok tt, l') /\ row_written nc t (seqZ 0 nc) (fun j => v @ (p + j)) l l'.
Proof.
  intros Hs -> Ht Hnc Hp Hv Hl. destruct (copy_cols v s nc t p (seqZ 0 nc) Hs) with (l := l) as (l' & E & W); [intros c Hc; apply elem_of_seqZ in Hc; lia|done|done|].
  exists l'. split; [done|]. destruct W as (W1 & W2 & W3). split; [done|]. split; [|done]. intros j c Hj Lj. rewrite (W2 j c Hj Lj). pose proof (zlook_Some_lt _ _ _ Hj) as B. rewrite zlen_seqZ in B.
  rewrite zlook_seqZ by lia. done.
Qed.
Definition first_bad (bad : Z -> bool) (rows : list Z) (k : Z) : Prop := (exists x, rows @ k = Some x /\ bad x = true) /\ forall i x, i < k -> rows @ i = Some x -> bad x = false.
Lemma first_bad_here bad x rows : bad x = true -> first_bad bad (x :: rows) 0.
Proof. intros H. split; [by exists x|]. intros i y Hi E. pose proof (zlook_Some_lt _ _ _ E). lia. Qed.
Lemma first_bad_cons bad x rows k : bad x = false -> first_bad bad rows k -> 0 <= k /\ first_bad bad (x :: rows) (k + 1).
Proof.
  intros H [(y & E & Hy) Hk]. pose proof (zlook_Some_lt _ _ _ E). split; [lia|]. split.
  - exists y. rewrite zlook_cons. replace (k + 1 =? 0) with false by lia. replace (k + 1 - 1) with k by lia. done.
  - intros i z Hi. rewrite zlook_cons. destruct (Z.eqb_spec i 0); [by intros [= <-]|]. apply Hk. lia.
Qed.
Definition rowSrc {A} (v : list A) (p : Z -> Z) (rows : list Z) (i j : Z) : option A := match rows @ i with Some r => v @ (p r + j) | None => None end.
Lemma tuples_ok {A} (v : list A) s nc nt (bad : Z -> bool) (p τ q : Z -> Z) rows : (forall l, srcVals s l = v) -> 0 <= nc ->
  (forall r, r ∈ rows -> bad r = false -> q r = τ r * nc /\ 0 <= τ r < nt /\ 0 <= p r /\ p r + nc <= zlen v) -> forall l, zlen l = nt * nc ->
  exists r l', each (fun r l => whenE (bad r) l (copyTuple s nc (p r) (q r) l)) rows l = (r, l') /\
    ((forall r, r ∈ rows -> bad r = false) -> r = Ok tt /\ written nc (τ <$> rows) (seqZ 0 nc) (rowSrc v p rows) l l') /\
    (~ (forall r, r ∈ rows -> bad r = false) -> r = Throw /\ exists k, first_bad bad rows k /\ written nc (take (Z.to_nat k) (τ <$> rows)) (seqZ 0 nc) (rowSrc v p rows) l l').
Proof.
  intros Hs Hnc. induction rows as [|x rows IH]; intros Hr l Hl.
  - exists (Ok tt), l. split; [done|]. split; [intros _; split; [done|apply written_nil]|]. intros K. exfalso. apply K. intros r Hx. by apply elem_of_nil in Hx.
  - cbn [each]. rewrite fmap_cons. destruct (bad x) eqn:Eb; unfold whenE at 1.
    + exists Throw, l. split; [done|]. split; [intros K; specialize (K x (elem_of_list_here _ _)); congruence|]. intros _. split; [done|]. exists 0. split; [by apply first_bad_here|apply written_nil].
    + destruct (Hr x (elem_of_list_here _ _) Eb) as (Eq & Bt & Bp & Bv). destruct (copyTuple_ok v s nc (τ x) (p x) (q x) l Hs Eq) as (l1 & E1 & W1); [lia|done|done|done|nia|]. rewrite E1.
      destruct (IH (fun r H => Hr r (elem_of_list_further _ _ _ H)) l1) as (r & l2 & E2 & G1 & G2); [destruct W1; lia|]. exists r, l2. split; [exact E2|].
      assert (WW : forall T, written nc T (seqZ 0 nc) (rowSrc v p rows) l1 l2 -> zlen T <= zlen rows -> written nc (τ x :: T) (seqZ 0 nc) (rowSrc v p (x :: rows)) l l2).
      { intros T (V1 & V2 & V3) LT. apply (written_cons _ _ _ _ _ _ l1); [intros c Hc; apply elem_of_seqZ in Hc; lia|exact W1|]. split; [done|]. split; [|done].
        intros i j t c Hi Hj Li Lj. rewrite (V2 i j t c Hi Hj Li Lj). pose proof (zlook_Some_lt _ _ _ Hi). unfold rowSrc. rewrite zlook_cons. replace (i + 1 =? 0) with false by lia. replace (i + 1 - 1) with i by lia. done. }
      assert (GG : (forall r, r ∈ x :: rows -> bad r = false) <-> (forall r, r ∈ rows -> bad r = false)).
      { split; intros K y Hy; [apply K; by apply elem_of_list_further|]. apply elem_of_cons in Hy as [->|Hy]; [done|by apply K]. }
      rewrite GG. split.
      * intros G. destruct (G1 G) as [-> W]. split; [done|]. apply WW; [done|rewrite zlen_fmap; lia].
      * intros G. destruct (G2 G) as [-> (k & F & W)]. split; [done|]. destruct (first_bad_cons _ _ _ _ Eb F) as [K0 F']. exists (k + 1). split; [done|].
        replace (Z.to_nat (k + 1)) with (S (Z.to_nat k)) by lia. cbn [take]. apply WW; [done|]. unfold zlen. rewrite take_length, fmap_length. lia.
Qed.
Lemma each_ext {T S} (f g : T -> S -> res unit * S) l s : (forall x s, x ∈ l -> f x s = g x s) -> each f l s = each g l s.
Proof.
  revert s. induction l as [|x l IH]; intros s H; [done|]. cbn [each]. rewrite (H x s (elem_of_list_here _ _)). destruct (g x s) as [[] s']; try done. apply IH. intros y t Hy. apply H. by apply elem_of_list_further.
Qed.
Lemma wf_rows {A} (a : da A) t : da_wf a -> 0 <= t < da_nt a -> 0 <= da_nc a * t /\ da_nc a * t + da_nc a <= zlen (da_vals a).
Proof. intros W H. pose proof (da_wf_len a W) as (L & ? & ?). nia. Qed.

(** setContigPartOfSelectedValues. *)
Lemma contig_loop {A} (s : source A) nc nt sel : forall pre q0 l,
  exists q', each (fun t '(q, l) => whenE (outOfRange nt t) (q, l) (let '(r, l) := copyTuple s nc (nc * t) q l in (r, (q + nc, l)))) sel (q0 + zlen pre * nc, l) =
  (let '(r, l') := each (fun i l => whenE (outOfRange nt (default 0 ((pre ++ sel) @ i))) l (copyTuple s nc (nc * default 0 ((pre ++ sel) @ i)) (q0 + i * nc) l)) (seqZ (zlen pre) (zlen sel)) l in (r, (q', l'))).
Proof.
  induction sel as [|t sel IH]; intros pre q0 l; [eexists; reflexivity|]. rewrite zlen_cons. pose proof (zlen_nonneg sel). rewrite seqZ_cons by lia. replace (Z.pred (1 + zlen sel)) with (zlen sel) by lia. cbn [each].
  assert (E : (pre ++ t :: sel) @ zlen pre = Some t) by (rewrite zlook_app_r by lia; rewrite Z.sub_diag; done). rewrite E. cbn [from_option id].
  destruct (outOfRange nt t); unfold whenE at 1 3; [eexists; reflexivity|]. destruct (copyTuple s nc (nc * t) (q0 + zlen pre * nc) l) as [[] l1]; [|eexists; reflexivity..].
  destruct (IH (pre ++ [t]) q0 l1) as [q' E']. exists q'. rewrite <- app_assoc in E'. cbn [app] in E'. rewrite zlen_app in E'. change (zlen [t]) with 1 in E'.
  replace (q0 + zlen pre * nc + nc) with (q0 + (zlen pre + 1) * nc) by lia. rewrite E'. change (Z.succ (zlen pre)) with (zlen pre + 1). reflexivity.
Qed.
Lemma contig_ok {A} (d a : da A) start sel : da_wf d -> da_wf a -> 0 <= start ->
  sets (first_out (da_vals sel) (da_nt a)) d (usable3 d a sel 1 /\ start + zlen (da_vals sel) <= da_nt d /\ ids_in (da_vals sel) (da_nt a)) (seqZ start (zlen (da_vals sel))) (seqZ 0 (da_nc d))
    (tuple_of a (da_vals sel)) (setContigPartOfSelectedValues d start (Other a) sel).
Proof.
  intros Wd Wa Hs. pose proof (da_wf_len d Wd) as (L & N1 & N2). unfold setContigPartOfSelectedValues. cbv zeta. cbn [isNull srcArr]. unfold checked at 1. unfold usable3.
  destruct (da_alloc d) eqn:Ad; [|apply sets_throw; intros [[? ?] _]; done]. unfold checked at 1; cbn [negb].
  destruct (da_alloc a) eqn:Aa; [|apply sets_throw; intros [(? & ? & ?) _]; done]. unfold checked at 1; cbn [negb].
  destruct (da_alloc sel) eqn:As; [|apply sets_throw; intros [(? & ? & ? & ?) _]; done]. unfold checked at 1; cbn [negb].
  destruct (Z.eqb_spec (da_nc d) (da_nc a)) as [En|En]; [|apply sets_throw; intros [(? & ? & ? & ? & ?) _]; lia]. unfold checked at 1; cbn [negb].
  destruct (Z.eqb_spec (da_nc sel) 1) as [E1|E1]; [|apply sets_throw; intros [(? & ? & ? & ? & ?) _]; lia]. unfold checked at 1; cbn [negb]. rewrite (da_nt_one sel) by done.
  destruct (Z.ltb_spec (da_nt d) (start + zlen (da_vals sel))); [apply sets_throw; lia|]. unfold checked.
  pose proof (zlen_nonneg (da_vals sel)). destruct (contig_loop (Other a) (da_nc d) (da_nt a) (da_vals sel) [] (start * da_nc d) (da_vals d)) as [q' E0]. change (zlen []) with 0 in E0. rewrite Z.mul_0_l, Z.add_0_r in E0. cbn [app] in E0. rewrite E0. clear E0. 
  set (SL := da_vals sel) in *.
  destruct (tuples_ok (da_vals a) (Other a) (da_nc d) (da_nt d) (fun i => outOfRange (da_nt a) (default 0 (SL @ i))) (fun i => da_nc d * default 0 (SL @ i)) (fun i => start + i) (fun i => start * da_nc d + i * da_nc d) (seqZ 0 (zlen SL))) with (l := da_vals d) as (r & l' & E & G1 & G2); [done|done| |done|].
  { intros i Hi B. apply elem_of_seqZ in Hi. apply outOfRange_spec in B. pose proof (wf_rows a _ Wa B) as [? ?]. rewrite En. split; [lia|]. split; [lia|]. split; [done|done]. }
  rewrite E. assert (ET : (fun i => start + i) <$> seqZ 0 (zlen SL) = seqZ start (zlen SL)).
  {    rewrite (fmap_add_seqZ start 0), Z.add_0_r. done. }
  rewrite ET in G1, G2.
  assert (EG : (forall r, r ∈ seqZ 0 (zlen SL) -> outOfRange (da_nt a) (default 0 (SL @ r)) = false) <-> ids_in SL (da_nt a)).
  { split.
    - intros K x [k Hk]%elem_of_zlook. pose proof (zlook_Some_lt _ _ _ Hk). specialize (K k). rewrite Hk in K. cbn in K. apply outOfRange_spec, K, elem_of_seqZ. lia.
    - intros K i Hi. apply elem_of_seqZ in Hi. destruct (zlook_lt SL i) as [x Hx]; [lia|]. rewrite Hx. cbn. apply outOfRange_spec, K, elem_of_zlook. by exists i. }
  assert (EV : forall T l', written (da_nc d) T (seqZ 0 (da_nc d)) (rowSrc (da_vals a) (fun i => da_nc d * default 0 (SL @ i)) (seqZ 0 (zlen SL))) (da_vals d) l' -> zlen T <= zlen SL -> ids_in (take (length T) SL) (da_nt a) ->
     written (da_nc d) T (seqZ 0 (da_nc d)) (tuple_of a SL) (da_vals d) l').
  { intros T l2 (W1 & W2 & W3) LT IT. split; [done|]. split; [|done]. intros i j t c Hi Hj Li Lj. rewrite (W2 i j t c Hi Hj Li Lj). unfold rowSrc, tuple_of. pose proof (zlook_Some_lt _ _ _ Hi) as B1. pose proof (zlook_Some_lt _ _ _ Hj) as B2. rewrite zlen_seqZ in B2.
    rewrite zlook_seqZ by lia. rewrite Z.add_0_l. destruct (zlook_lt SL i) as [x Hx]; [lia|]. rewrite Hx. cbn [from_option id]. assert (0 <= x < da_nt a). { apply IT, elem_of_zlook. exists i. rewrite zlook_take; [done|]. unfold zlen in B1. lia. }
    unfold ij. replace (_ && _ && _) with true by lia. rewrite En. f_equal. lia. }
  unfold ret, sets. split; [done|]. split; [done|]. cbn [da_vals]. split.
  - intros (_ & _ & G). destruct G1 as [-> W]; [by apply EG|]. split; [done|]. apply EV; [done|rewrite zlen_seqZ; lia|]. intros x Hx. apply G. rewrite take_ge in Hx; [done|]. rewrite seqZ_length. unfold zlen. lia.
  - intros K. destruct G2 as [-> (k & F & W)]; [intros Q; apply K; split; [done|]; split; [done|by apply EG]|]. split; [done|]. right.
    destruct F as [(x & Hx & B) Hk]. pose proof (zlook_Some_lt _ _ _ Hx) as Bk. rewrite zlen_seqZ in Bk. rewrite zlook_seqZ in Hx by lia. injection Hx as <-. rewrite Z.add_0_l in B. destruct (zlook_lt SL k) as [y Hy]; [lia|]. rewrite Hy in B. cbn in B.
    assert (FO : forall i t, i < k -> SL @ i = Some t -> 0 <= t < da_nt a).
    { intros i t Hi Ht. pose proof (zlook_Some_lt _ _ _ Ht). specialize (Hk i i Hi). rewrite zlook_seqZ in Hk by lia. specialize (Hk eq_refl). rewrite Ht in Hk. by apply outOfRange_spec. }
    exists k. split.
    + split; [|exact FO]. exists y. split; [done|]. intros Q. apply outOfRange_spec in Q. congruence.
    + apply EV; [done|unfold zlen; rewrite take_length, seqZ_length; unfold zlen; lia|]. intros x [i Hi]%elem_of_zlook. pose proof (zlook_Some_lt _ _ _ Hi) as Bi. assert (i < k) by (unfold zlen in Bi; rewrite !take_length, seqZ_length in Bi; unfold zlen in Bi; lia). apply (FO i x); [done|]. rewrite zlook_take in Hi; [done|]. rewrite take_length, seqZ_length. unfold zlen in *. lia.
Qed.

Lemma contig_slice_ok {A} (d a : da A) start bg e step F : da_wf d -> da_wf a -> 0 <= start -> 0 <= bg -> is_range_list bg e step F ->
  sets nowhere d (usable d a /\ da_nc a = da_nc d /\ slice_in bg e step (da_nt a) /\ start + zlen F <= da_nt d) (seqZ start (zlen F)) (seqZ 0 (da_nc d))
    (tuple_of a F) (setContigPartOfSelectedValuesSlice d start (Other a) bg e step).
Proof.
  intros Wd Wa Hs Hbg HF. pose proof (da_wf_len d Wd) as (L & N1 & N2). pose proof (da_wf_len a Wa) as (La & M1 & M2). unfold setContigPartOfSelectedValuesSlice. cbv zeta. cbn [isNull srcArr]. unfold checked at 1. unfold usable.
  destruct (da_alloc d) eqn:Ad; [|apply sets_throw; intros [[? ?] _]; done]. unfold checked at 1; cbn [negb].
  destruct (da_alloc a) eqn:Aa; [|apply sets_throw; intros [(? & ?) _]; done]. unfold checked at 1; cbn [negb].
  destruct (decide (slice_in bg e step e)) as [[S1 [S2 S3]]|S].
  2:{ destruct (bes_good bg e step (Z.max 0 e) F ltac:(lia) HF) as [(Q & _)|(_ & [E|[[m E] O]])].
      - exfalso. apply S. unfold slice_in in *. lia.
      - rewrite E. cbn [onOk]. apply sets_throw. unfold slice_in in *. lia.
      - exfalso. apply S. apply bes_throw_inv in E || idtac. unfold GetNumberOfItemGivenBES, ifthrow in E. destruct (Z.ltb_spec e bg); [done|]. destruct (Z.eqb_spec e bg); [unfold slice_in; lia|]. destruct (Z.leb_spec step 0); [done|]. unfold slice_in. lia. }
  destruct (bes_good bg e step e F ltac:(lia) HF) as [(_ & E & _ & EF & IF)|(Q & _)]; [|exfalso; apply Q; unfold slice_in; lia]. rewrite E. cbn [onOk].
  destruct (Z.eqb_spec (da_nc d) (da_nc a)) as [En|En]; [|apply sets_throw; intros (? & ? & _); lia]. unfold checked at 1; cbn [negb].
  destruct (Z.ltb_spec (da_nt d) (start + zlen F)); [apply sets_throw; lia|]. unfold checked at 1.
  destruct (Z.ltb_spec (da_nt a) e); [apply sets_throw; unfold slice_in; lia|]. unfold checked. pose proof (zlen_nonneg F).
  assert (FI : forall i, 0 <= i < zlen F -> F @ i = Some (bg + i * step) /\ 0 <= bg + i * step < da_nt a).
  { intros i Hi. assert (Q : F @ i = Some (bg + i * step)). { rewrite EF. rewrite zlook_fmap, zlook_seqZ by lia. cbn. do 2 f_equal. }
    split; [done|]. assert (0 <= bg + i * step < e); [|lia]. apply IF, elem_of_zlook. by exists i. }
  destruct (tuples_ok (da_vals a) (Other a) (da_nc d) (da_nt d) never (fun i => bg * da_nc d + i * (step * da_nc d)) (fun i => start + i) (fun i => start * da_nc d + i * da_nc d) (seqZ 0 (zlen F))) with (l := da_vals d) as (r & l' & E' & G1 & _); [done|done| |done|].
  { intros i Hi _. apply elem_of_seqZ in Hi. destruct (FI i ltac:(lia)) as [_ B]. pose proof (wf_rows a _ Wa B) as [? ?]. rewrite En. split; [lia|]. split; [lia|]. nia. }
  cbn [never whenE] in E'. change (fun i l => whenE (never i) l (copyTuple (Other a) (da_nc d) (bg * da_nc d + i * (step * da_nc d)) (start * da_nc d + i * da_nc d) l)) with (fun i l => copyTuple (Other a) (da_nc d) (bg * da_nc d + i * (step * da_nc d)) (start * da_nc d + i * da_nc d) l) in E'.
  rewrite E'. cbn [done1]. destruct (G1 (fun _ _ => eq_refl)) as [-> (W1 & W2 & W3)].
  rewrite (fmap_add_seqZ start 0), Z.add_0_r in W2, W3. unfold ret, sets. split; [done|]. split; [done|]. cbn [da_vals]. split.
  - intros _. split; [done|]. split; [done|]. split; [|done]. intros i j t c Hi Hj Li Lj. rewrite (W2 i j t c Hi Hj Li Lj).
    pose proof (zlook_Some_lt _ _ _ Hi) as B1. pose proof (zlook_Some_lt _ _ _ Hj) as B2. rewrite zlen_seqZ in B1, B2. destruct (FI i ltac:(lia)) as [Q B].
    unfold rowSrc, tuple_of. rewrite zlook_seqZ by lia. rewrite Q. unfold ij. replace (_ && _ && _) with true by lia. rewrite <- En. f_equal. lia.
  - intros K. exfalso. apply K. split; [done|]. split; [done|]. split; [unfold slice_in; lia|lia].
Qed.
Lemma adv_ok {A} (d a : da A) sel T F : da_wf d -> da_wf a -> (da_nc sel = 2 -> pairs (da_vals sel) T F) ->
  sets (first_out2 T (da_nt d) F (da_nt a)) d (usable3 d a sel 2 /\ ids_in T (da_nt d) /\ ids_in F (da_nt a)) T (seqZ 0 (da_nc d)) (tuple_of a F) (setPartOfValuesAdv d (Other a) sel).
Proof.
  intros Wd Wa Hp. pose proof (da_wf_len d Wd) as (L & N1 & N2). unfold setPartOfValuesAdv. cbv zeta. cbn [isNull srcArr]. unfold checked at 1. unfold usable3.
  destruct (da_alloc d) eqn:Ad; [|apply sets_throw; intros [[? ?] _]; done]. unfold checked at 1; cbn [negb].
  destruct (da_alloc a) eqn:Aa; [|apply sets_throw; intros [(? & ? & ?) _]; done]. unfold checked at 1; cbn [negb].
  destruct (da_alloc sel) eqn:As; [|apply sets_throw; intros [(? & ? & ? & ?) _]; done]. unfold checked at 1; cbn [negb].
  destruct (Z.eqb_spec (da_nc d) (da_nc a)) as [En|En]; [|apply sets_throw; intros [(? & ? & ? & ? & ?) _]; lia]. unfold checked at 1; cbn [negb].
  destruct (Z.eqb_spec (da_nc sel) 2) as [N2s|N2s]; [|apply sets_throw; intros [(? & ? & ? & ? & ?) _]; lia]. destruct (Hp N2s) as (P1 & P2 & P3). unfold checked; cbn [negb]. pose proof (zlen_nonneg T).
  assert (NT : da_nt sel = zlen T). { unfold da_nt. rewrite N2s, P2. change (2 =? 0) with false. cbv iota. rewrite Z.mul_comm. apply Z.quot_mul. lia. } rewrite NT.
  assert (AT : forall i, 0 <= i < zlen T -> exists t f, T @ i = Some t /\ F @ i = Some f /\ da_vals sel @ (2 * i) = Some t /\ da_vals sel @ (2 * i + 1) = Some f).
  { intros i Hi. destruct (zlook_lt T i) as [t Ht]; [lia|]. destruct (zlook_lt F i) as [f Hf]; [lia|]. exists t, f. destruct (P3 i Hi) as [-> ->]. done. }
  set (bad := fun i => outOfRange (da_nt a) (default 0 (F @ i)) || outOfRange (da_nt d) (default 0 (T @ i))).
  erewrite (each_ext _ (fun i l => whenE (bad i) l (copyTuple (Other a) (da_nc d) (da_nc d * default 0 (F @ i)) (da_nc d * default 0 (T @ i)) l))).
  2:{ intros i l Hi. apply elem_of_seqZ in Hi. destruct (AT i ltac:(lia)) as (t & f & Ht & Hf & E1 & E2). rewrite (rd_ok _ _ _ E1), (rd_ok _ _ _ E2). cbn [bind]. unfold bad. rewrite Ht, Hf. cbn [from_option id]. unfold whenE. destruct (outOfRange (da_nt a) f); [done|]. destruct (outOfRange (da_nt d) t); done. }
  destruct (tuples_ok (da_vals a) (Other a) (da_nc d) (da_nt d) bad (fun i => da_nc d * default 0 (F @ i)) (fun i => default 0 (T @ i)) (fun i => da_nc d * default 0 (T @ i)) (seqZ 0 (zlen T))) with (l := da_vals d) as (r & l' & E & G1 & G2); [done|done| |done|].
  { intros i Hi B. unfold bad in B. apply orb_false_iff in B as [B1 B2]. apply outOfRange_spec in B1, B2. pose proof (wf_rows a _ Wa B1) as [? ?]. rewrite En. split; [lia|]. done. }
  rewrite E. cbn [done1].
  assert (ET : (fun i => default 0 (T @ i)) <$> seqZ 0 (zlen T) = T).
  { apply zlook_ext_lt; [rewrite zlen_fmap, zlen_seqZ; lia|]. intros k Hk. rewrite zlen_fmap, zlen_seqZ in Hk. rewrite zlook_fmap, zlook_seqZ by lia. rewrite Z.add_0_l. destruct (zlook_lt T k) as [t Ht]; [lia|]. cbn [fmap option_fmap option_map]. rewrite Ht. done. }
  rewrite ET in G1, G2.
  assert (BS : forall i t f, T @ i = Some t -> F @ i = Some f -> bad i = false <-> 0 <= t < da_nt d /\ 0 <= f < da_nt a).
  { intros i t f Ht Hf. unfold bad. rewrite Ht, Hf. cbn [from_option id]. rewrite orb_false_iff, !outOfRange_spec. tauto. }
  assert (EG : (forall i, i ∈ seqZ 0 (zlen T) -> bad i = false) <-> ids_in T (da_nt d) /\ ids_in F (da_nt a)).
  { split.
    - intros K. split; intros x [k Hk]%elem_of_zlook; pose proof (zlook_Some_lt _ _ _ Hk) as B; destruct (AT k ltac:(lia)) as (t & f & Ht & Hf & _); specialize (K k ltac:(apply elem_of_seqZ; lia)); apply (BS k t f Ht Hf) in K; rewrite ?Ht, ?Hf in Hk; injection Hk as <-; tauto.
    - intros [K1 K2] i Hi. apply elem_of_seqZ in Hi. destruct (AT i ltac:(lia)) as (t & f & Ht & Hf & _). apply (BS i t f Ht Hf). split; [apply K1|apply K2]; apply elem_of_zlook; by exists i. }
  assert (EV : forall k l', written (da_nc d) (take k T) (seqZ 0 (da_nc d)) (rowSrc (da_vals a) (fun i => da_nc d * default 0 (F @ i)) (seqZ 0 (zlen T))) (da_vals d) l' -> (forall i, i < Z.of_nat k -> 0 <= i < zlen T -> bad i = false) ->
     written (da_nc d) (take k T) (seqZ 0 (da_nc d)) (tuple_of a F) (da_vals d) l').
  { intros k l2 (W1 & W2 & W3) IT. split; [done|]. split; [|done]. intros i j t c Hi Hj Li Lj. rewrite (W2 i j t c Hi Hj Li Lj). unfold rowSrc, tuple_of. pose proof (zlook_Some_lt _ _ _ Hi) as B1. pose proof (zlook_Some_lt _ _ _ Hj) as B2. rewrite zlen_seqZ in B2.
    assert (i < Z.of_nat k /\ 0 <= i < zlen T) as [C1 C2] by (unfold zlen in *; rewrite take_length in B1; lia). specialize (IT i C1 C2). destruct (AT i C2) as (t' & f & Ht & Hf & _). apply (BS i t' f Ht Hf) in IT.
    rewrite zlook_seqZ by lia. rewrite Z.add_0_l, Hf. cbn [from_option id]. unfold ij. replace (_ && _ && _) with true by lia. rewrite En. f_equal. lia. }
  unfold ret, sets. split; [done|]. split; [done|]. cbn [da_vals]. split.
  - intros (_ & G). destruct G1 as [-> W]; [by apply EG|]. split; [done|]. assert (TT : take (length T) T = T) by (by apply take_ge). rewrite <- TT in W |- *. rewrite TT in W at 2 || idtac. apply EV; [rewrite TT in *; done|]. intros i _ Hi. apply EG; [done|]. apply elem_of_seqZ. lia.
  - intros K. destruct G2 as [-> (k & Fk & W)]; [intros Q; apply K; split; [done|by apply EG]|]. split; [done|]. right.
    destruct Fk as [(x & Hx & B) Hk]. pose proof (zlook_Some_lt _ _ _ Hx) as Bk. rewrite zlen_seqZ in Bk. rewrite zlook_seqZ in Hx by lia. injection Hx as <-. rewrite Z.add_0_l in B. destruct (AT k ltac:(lia)) as (t & f & Ht & Hf & _).
    assert (FO : forall i, i < k -> 0 <= i < zlen T -> bad i = false). { intros i Hi Hi'. specialize (Hk i i Hi). rewrite zlook_seqZ in Hk by lia. by apply Hk. }
    exists k. split.
    + split.
      * exists t, f. split; [done|]. split; [done|]. intros Q. apply (BS k t f Ht Hf) in Q. congruence.
      * intros i t' f' Hi Ht' Hf'. apply (BS i t' f' Ht' Hf'). apply FO; [done|]. by eapply zlook_Some_lt.
    + apply EV; [done|]. intros i Hi Hi'. apply FO; [lia|done].
Qed.

(** ** The array itself as source. *)
Lemma so_done1 {A} (d : da A) x y : sameO (Rl (zlen (da_vals d))) x y -> same_outcome d (done1 d x) (done1 d y).
Proof. destruct x as [r1 l1], y as [r2 l2]. intros [E [R1 R2]]. cbn in *. subst r2. done. Qed.
Lemma copyTuple_rel {A} (d : da A) nc p q l1 l2 : Rl (zlen (da_vals d)) l1 l2 -> sameO (Rl (zlen (da_vals d))) (copyTuple Self nc p q l1) (copyTuple (Other d) nc p q l2).
Proof. intros R. unfold copyTuple. apply each_rel; [|done]. intros j m1 m2 R'. cbn [srcVals]. apply assign_rel; [done|]. exact (proj1 R'). Qed.
Lemma contig_slice_self {A} (d : da A) start bg e step : same_outcome d (setContigPartOfSelectedValuesSlice d start Self bg e step) (setContigPartOfSelectedValuesSlice d start (Other d) bg e step).
Proof. unfold setContigPartOfSelectedValuesSlice. cbv zeta; cbn [isNull srcArr]; repeat (apply so_checked || (apply so_onOk; intros ?)). apply so_done1, each_rel; [|done]. intros i l1 l2 R. by apply copyTuple_rel. Qed.
Lemma adv_self {A} (d : da A) sel : same_outcome d (setPartOfValuesAdv d Self sel) (setPartOfValuesAdv d (Other d) sel).
Proof.
  unfold setPartOfValuesAdv. cbv zeta; cbn [isNull srcArr]; repeat (apply so_checked || (apply so_onOk; intros ?)). apply so_done1, each_rel; [|done]. intros i l1 l2 R.
  destruct (bind _ _) as [[t0 t1]| | |]; [|split; done..]. unfold whenE. destruct (outOfRange _ _); [split; done|]. destruct (outOfRange _ _); [split; done|]. by apply copyTuple_rel.
Qed.
Lemma contig_self {A} (d : da A) start sel : same_outcome d (setContigPartOfSelectedValues d start Self sel) (setContigPartOfSelectedValues d start (Other d) sel).
Proof.
  unfold setContigPartOfSelectedValues. cbv zeta; cbn [isNull srcArr]; repeat (apply so_checked || (apply so_onOk; intros ?)).
  match goal with |- same_outcome _ (let '(_, _) := ?x in _) (let '(_, _) := ?y in _) => assert (H : sameO (fun s1 s2 : Z * list A => fst s1 = fst s2 /\ Rl (zlen (da_vals d)) (snd s1) (snd s2)) x y) end.
  { apply each_rel; [|done]. intros t [q1 l1] [q2 l2] [E R]. cbn in E, R. subst q2. unfold whenE. destruct (outOfRange _ _); [split; done|]. pose proof (copyTuple_rel d (da_nc d) (da_nc d * t) q1 l1 l2 R) as [Q1 Q2].
    destruct (copyTuple Self _ _ _ _) as [r1 m1], (copyTuple (Other d) _ _ _ _) as [r2 m2]. cbn in Q1, Q2. subst r2. done. }
  destruct (each _ _ _) as [r1 [k1 l1]]. destruct (each _ _ _) as [r2 [k2 l2]]. destruct H as [E [_ [R1 R2]]]. cbn in *. subst r2. done.
Qed.
Lemma set_null {A} (d : da A) bT eT sT bC eC sC T C strict :
  setPartOfValues1 d Null bT eT sT bC eC sC strict = (Throw, d) /\ setPartOfValues2 d Null T C strict = (Throw, d) /\ setPartOfValues3 d Null T bC eC sC strict = (Throw, d) /\ setPartOfValues4 d Null bT eT sT C strict = (Throw, d).
Proof. done. Qed.
Lemma contig_null {A} (d : da A) start sel bg e step :
  setContigPartOfSelectedValues d start Null sel = (Throw, d) /\ setContigPartOfSelectedValuesSlice d start Null bg e step = (Throw, d) /\ setPartOfValuesAdv d Null sel = (Throw, d).
Proof. done. Qed.

(** ** What fails. *)
Lemma vecWf {A} (l : list A) : da_wf (vec l).
Proof. split; [cbn; lia|]. exists (zlen l). cbn. pose proof (zlen_nonneg l). lia. Qed.
Lemma self_values_refuted : ~ forall (d : da Z) T C, da_wf d -> setPartOfValues2 d Self T C true = setPartOfValues2 d (Other d) T C true.
Proof. intros H. specialize (H (vec [10; 20]) [1; 0] [0] (vecWf _)). vm_compute in H. congruence. Qed.
Lemma contig_start_refuted : ~ forall (d a : da Z) start sel, da_wf d -> da_wf a -> da_wf sel -> fst (setContigPartOfSelectedValues d start (Other a) sel) <> UB.
Proof. intros H. apply (H (vec [10; 20]) (vec [5]) (-1) (vec [0])); try apply vecWf; done. Qed.
Lemma contig_slice_start_refuted : ~ forall (d a : da Z) start bg e step, da_wf d -> da_wf a -> fst (setContigPartOfSelectedValuesSlice d start (Other a) bg e step) <> UB.
Proof. intros H. apply (H (vec [10; 20]) (vec [5]) (-1) 0 1 1); try apply vecWf; done. Qed.
Lemma contig_slice_begin_refuted : ~ forall (d a : da Z) start bg e step, da_wf d -> da_wf a -> 0 <= start -> fst (setContigPartOfSelectedValuesSlice d start (Other a) bg e step) <> UB.
Proof. intros H. apply (H (vec [10; 20]) (vec [5]) 0 (-1) 1 1); try apply vecWf; done. Qed.
