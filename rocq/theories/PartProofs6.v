From stdpp Require Import relations.
From Coq Require Import ZifyBool ZifyNat.
From Verif Require Import Base DataArray ArrLib StdModel StdProofs RenumSpec RenumProofs SearchSpec SearchProofs PermProofs IndexSpec FillLib IndexProofs2 IndexProofs3 IndexProofs4 IndexProofs5 PartSpec PartModel PartProofs PartProofs2 PartProofs3 PartProofs4 PartProofs5.

(** * Flat lists of pairs *)
Lemma flat_cons p ps : flat (p :: ps) = p.1 :: p.2 :: flat ps.
Proof. done. Qed.
Lemma flat_app a b : flat (a ++ b) = flat a ++ flat b.
Proof. unfold flat. apply bind_app. Qed.
Lemma flat_len ps : zlen (flat ps) = 2 * zlen ps.
Proof. induction ps as [|p ps IH]; [done|]. rewrite flat_cons, !zlen_cons, IH. lia. Qed.
Lemma flat_look ps i : flat ps @ (2 * i) = fst <$> ps @ i /\ flat ps @ (2 * i + 1) = snd <$> ps @ i.
Proof.
  revert i. induction ps as [|p ps IH]; intros i; [change (flat []) with (@nil Z); rewrite !zlook_nil; done|]. rewrite flat_cons, !zlook_cons.
  destruct (Z.eqb_spec i 0) as [->|Hi]; [done|]. replace (2 * i =? 0) with false by lia. replace (2 * i + 1 =? 0) with false by lia.
  replace (2 * i - 1 =? 0) with false by lia. replace (2 * i + 1 - 1 =? 0) with false by lia.
  replace (2 * i - 1 - 1) with (2 * (i - 1)) by lia. replace (2 * i + 1 - 1 - 1) with (2 * (i - 1) + 1) by lia. apply IH.
Qed.
Lemma flat_pair_at ps i p : pair_at (flat ps) i p <-> ps @ i = Some p.
Proof.
  unfold pair_at. destruct (flat_look ps i) as [-> ->]. destruct (ps @ i) as [q|]; simpl; split; try done.
  - intros [[= H1] [= H2]]. f_equal. destruct p, q; simpl in *; congruence.
  - intros [= ->]. done.
  - intros [? _]; done.
Qed.
Lemma flat_surj l n : zlen l = 2 * n -> exists ps, l = flat ps /\ zlen ps = n.
Proof.
  intros Hl. assert (0 <= n) by (pose proof (zlen_nonneg l); lia). revert n H l Hl. refine (natlike_ind _ _ _).
  - intros l Hl. exists []. destruct l; [done|]. rewrite zlen_cons in Hl. pose proof (zlen_nonneg l). lia.
  - intros n Hn IH l Hl. destruct l as [|a [|b l]]; [unfold zlen in Hl; simpl in Hl; lia|unfold zlen in Hl; simpl in Hl; lia|].
    rewrite !zlen_cons in Hl. destruct (IH l) as (ps & -> & Hp); [lia|]. exists ((a, b) :: ps). split; [done|]. rewrite zlen_cons. lia.
Qed.
Lemma elem_flat x ps : x ∈ flat ps <-> exists p, p ∈ ps /\ (x = p.1 \/ x = p.2).
Proof.
  unfold flat. rewrite elem_of_list_bind. split; intros (p & H1 & H2).
  - exists p. rewrite !elem_of_cons, elem_of_nil in H1. split; [done|]. tauto.
  - exists p. split; [|done]. rewrite !elem_of_cons. tauto.
Qed.

Lemma elem_cc {A} (x : A) (ls : list (list A)) : x ∈ concat ls <-> exists p, p ∈ ls /\ x ∈ p.
Proof.
  induction ls as [|l ls IH]; simpl; [rewrite elem_of_nil; split; [done|intros (p & Hp & _); apply elem_of_nil in Hp; done]|].
  rewrite elem_of_app, IH. split.
  - intros [H|(p & H1 & H2)]; [exists l; split; [left|done]|exists p; split; [right|]; done].
  - intros (p & [->|H1]%elem_of_cons & H2); [left; done|right; eauto].
Qed.

(** * Pairs up to a flip *)
Definition norm (p : Z * Z) : Z * Z := (Z.min p.1 p.2, Z.max p.1 p.2).
Lemma norm_swap a b : norm (a, b) = norm (b, a).
Proof. unfold norm; simpl. f_equal; lia. Qed.
Lemma norm_same p q : norm p = norm q <-> same_pair p q.
Proof.
  destruct p as [a b], q as [c d]. unfold norm, same_pair. simpl. split.
  - intros [= H1 H2]. destruct (Z.min_spec a b) as [[? E]|[? E]], (Z.min_spec c d) as [[? E']|[? E']]; [left|right|right|left]; f_equal; lia.
  - intros [[= -> ->]|[= -> ->]]; [done|]. f_equal; lia.
Qed.
Lemma norm_flat ps : flat (norm <$> ps) ≡ₚ flat ps.
Proof.
  induction ps as [|[a b] ps IH]; [done|]. rewrite fmap_cons, !flat_cons. unfold norm at 1 2; simpl.
  destruct (Z.min_spec a b) as [[? ->]|[? ->]]; [rewrite Z.max_r by lia|rewrite Z.max_l by lia]; rewrite IH; [done|]. apply Permutation_swap.
Qed.
Lemma flat_perm a b : a ≡ₚ b -> flat a ≡ₚ flat b.
Proof. intros H. unfold flat. rewrite H. done. Qed.
Lemma norm_perm_flips a b : norm <$> a ≡ₚ norm <$> b -> exists l, l ≡ₚ b /\ Forall2 same_pair a l.
Proof.
  intros H. apply Permutation_map_inv in H as (l & Hl & Hp). exists l. split; [symmetry; done|].
  clear Hp. revert l Hl. induction a as [|p a IH]; intros [|q l] Hl; try done.
  assert (Hp : norm p = norm q /\ map norm a = map norm l) by (split; [exact (f_equal (hd (0, 0)) Hl)|exact (f_equal (@tail _) Hl)]).
  destruct Hp as [Hp Hr]. constructor; [apply norm_same; done|]. apply IH. done.
Qed.
Lemma occ_perm x (a b : list Z) : a ≡ₚ b -> occ x a = occ x b.
Proof. intros H. unfold occ, zlen. rewrite H. done. Qed.
Lemma occ_app x a b : occ x (a ++ b) = occ x a + occ x b.
Proof. unfold occ. rewrite filter_app, zlen_app. done. Qed.
Lemma occ_cons x y a : occ x (y :: a) = (if decide (y = x) then 1 else 0) + occ x a.
Proof. unfold occ. rewrite filter_cons. destruct (decide (y = x)); [rewrite zlen_cons; lia|done]. Qed.
Lemma norm_occ x a b : norm <$> a ≡ₚ norm <$> b -> occ x (flat a) = occ x (flat b).
Proof. intros H. rewrite <- (occ_perm _ _ _ (norm_flat a)), <- (occ_perm _ _ _ (norm_flat b)). apply occ_perm, flat_perm, H. Qed.

(** * Walks *)
Fixpoint walk (a : Z) (c : list (Z * Z)) (b : Z) : Prop :=
  match c with [] => a = b | p :: c' => p.1 = a /\ walk p.2 c' b end.
Lemma walk_app a c b o e : walk a c b -> walk b o e -> walk a (c ++ o) e.
Proof. revert a. induction c as [|p c IH]; intros a; simpl; [intros ->; done|]. intros [H1 H2] H3. auto. Qed.
Lemma paReverse_cons p c : paReverse (p :: c) = paReverse c ++ [(p.2, p.1)].
Proof. unfold paReverse. simpl. rewrite fmap_app. done. Qed.
Lemma walk_rev a c b : walk a c b -> walk b (paReverse c) a.
Proof.
  revert a. induction c as [|p c IH]; intros a; [intros H; symmetry; exact H|]. intros [H1 H2]. rewrite paReverse_cons.
  eapply walk_app; [apply IH; exact H2|]. simpl. done.
Qed.
Lemma norm_rev c : norm <$> paReverse c ≡ₚ norm <$> c.
Proof.
  induction c as [|[a b] c IH]; [done|]. rewrite paReverse_cons, fmap_app, IH. simpl. rewrite (norm_swap b a). apply Permutation_app_comm.
Qed.
Lemma walk_snoc a c p b : walk a (c ++ [p]) b -> walk a c p.1 /\ p.2 = b.
Proof. revert a. induction c as [|q c IH]; intros a; simpl; [intros [-> ->]; done|]. intros [H1 H2]. apply IH in H2 as [H2 H3]. done. Qed.
Lemma walk_front a c b : c <> [] -> walk a c b -> paFront c = Ok a.
Proof. destruct c as [|p c]; [done|]. intros _ [<- _]. done. Qed.
Lemma walk_back a c b : c <> [] -> walk a c b -> paBack c = Ok b.
Proof.
  destruct c as [|p c _] using rev_ind; [done|]. intros _ [_ H]%walk_snoc. unfold paBack. rewrite zlen_app. change (zlen [p]) with 1.
  replace (zlen c + 1 - 1) with (zlen c) by lia. rewrite (rd_ok _ _ p) by apply zlook_snoc. simpl. congruence.
Qed.
Lemma walk_ends a c b e : c <> [] -> walk a c b -> chain_end c e <-> e = a \/ e = b.
Proof.
  intros Hc Hw. pose proof (walk_front a c b Hc Hw) as Hf. pose proof (walk_back a c b Hc Hw) as Hb. unfold paFront, paBack, rd in *. unfold chain_end.
  destruct (c @ 0) as [p|]; [|done]. destruct (c @ (zlen c - 1)) as [q|]; [|done]. simpl in *. injection Hf as <-. injection Hb as <-. split.
  - intros [(? & [= <-] & ->)|(? & [= <-] & ->)]; auto.
  - intros [->| ->]; [left|right]; eauto.
Qed.
Lemma walk_consecutive a c b : walk a c b -> consecutive c.
Proof.
  revert a. induction c as [|p c IH]; intros a Hw i x y Hx Hy; [rewrite zlook_nil in Hx; done|]. destruct Hw as [_ Hw].
  rewrite zlook_cons in Hx, Hy. destruct (Z.eqb_spec i 0) as [->|].
  - injection Hx as <-. simpl in Hy. destruct c as [|q c]; [rewrite zlook_nil in Hy; done|]. rewrite zlook_cons in Hy. simpl in Hy. injection Hy as <-. destruct Hw as [-> _]. done.
  - assert (0 < i) by (apply zlook_Some_lt in Hx; lia). replace (i + 1 =? 0) with false in Hy by lia. apply (IH _ Hw (i - 1)); [done|]. rewrite <- Hy. f_equal. lia.
Qed.
Lemma walk_inner a c b v : walk a c b -> v ∈ flat c -> v <> a -> v <> b -> 2 <= occ v (flat c).
Proof.
  revert a. induction c as [|p c IH]; intros a Hw Hv Ha Hb; [apply elem_of_nil in Hv; done|]. destruct Hw as [H1 Hw].
  rewrite flat_cons in *. rewrite !occ_cons. rewrite decide_False by congruence. rewrite !elem_of_cons in Hv.
  destruct (decide (p.2 = v)) as [E|E].
  - destruct c as [|q c]; [simpl in Hw; congruence|]. destruct Hw as [Hq _]. rewrite flat_cons, !occ_cons. rewrite decide_True by congruence.
    pose proof (occ_nonneg v (flat c)). destruct (decide (q.2 = v)); lia.
  - destruct Hv as [?|[?|Hv]]; [congruence|congruence|]. specialize (IH _ Hw Hv ltac:(congruence) Hb). lia.
Qed.
Lemma occ_elem v l : v ∈ l -> 1 <= occ v l.
Proof. intros H. pose proof (occ_nonneg v l). destruct (decide (occ v l = 0)) as [E|]; [apply occ_zero in E; done|lia]. Qed.

(** * Aggregation of chains *)
Definition okc (c : list (Z * Z)) : Prop := c <> [] /\ exists a b, walk a c b.
Lemma try_wp c o : okc c -> okc o -> wp (tryToAggregate c o) (fun t => match t with
   | Some b => okc b /\ norm <$> b ≡ₚ norm <$> (c ++ o)
   | None => forall e, chain_end c e -> chain_end o e -> False end) False.
Proof.
  intros (Hc & a & b & Hw) (Ho & a' & b' & Hw'). unfold tryToAggregate. rewrite (walk_back _ _ _ Hc Hw), (walk_front _ _ _ Ho Hw'). cbn [bind].
  rewrite (walk_front _ _ _ Hc Hw), (walk_back _ _ _ Ho Hw').
  assert (Hne : c ++ o <> []) by (intros [? ?]%app_nil; done). assert (Hne2 : forall x, x ++ c <> []) by (intros x [? ?]%app_nil; done).
  destruct (Z.eqb_spec b a') as [->|N1]; [|cbn [bind]; destruct (Z.eqb_spec a b') as [->|N2]; [|destruct (Z.eqb_spec a a') as [->|N3]; [|destruct (Z.eqb_spec b b') as [->|N4]]]]; simpl.
  - split; [|done]. split; [done|]. eexists _, _. eapply walk_app; done.
  - split; [|rewrite (Permutation_app_comm o c); done]. split; [done|]. eexists _, _. eapply walk_app; done.
  - split; [|rewrite !fmap_app, norm_rev, Permutation_app_comm; done]. split; [done|]. eexists _, _. eapply walk_app; [apply walk_rev; done|done].
  - split; [|rewrite !fmap_app, norm_rev; done]. split; [intros [? ?]%app_nil; done|]. eexists _, _. eapply walk_app; [done|apply walk_rev; done].
  - intros e H1 H2. rewrite (walk_ends _ _ _ _ Hc Hw) in H1. rewrite (walk_ends _ _ _ _ Ho Hw') in H2. destruct H1 as [->| ->], H2 as [?|?]; congruence.
Qed.

Lemma absorb_wp base l : okc base -> (forall c, c ∈ l -> okc c) -> wp (absorb base l) (fun '(b, r, m) =>
   okc b /\ (forall c, c ∈ r -> okc c) /\ norm <$> concat (b :: r) ≡ₚ norm <$> concat (base :: l) /\ (length r <= length l)%nat /\
   if m : bool then (length r < length l)%nat else b = base /\ r = l /\ forall c e, c ∈ l -> chain_end base e -> chain_end c e -> False) False.
Proof.
  revert base. induction l as [|o l IH]; intros base Hb Hl; cbn [absorb].
  - simpl. split; [done|]. split; [done|]. split; [done|]. split; [done|]. split; [done|]. split; [done|]. intros c e Hc. apply elem_of_nil in Hc. done.
  - eapply wp_bind'; [apply try_wp; [done|apply Hl; left]|]. intros [b|] Ht.
    + destruct Ht as [Hb' Hp]. eapply wp_bind'; [apply (IH b Hb'); intros c Hc; apply Hl; right; done|]. intros [[b' r] m] (H1 & H2 & H3 & H4 & _). cbn [wp].
      split; [done|]. split; [done|]. split; [|simpl; lia]. rewrite H3. simpl. rewrite (app_assoc base), !fmap_app, Hp, fmap_app. done.
    + eapply wp_bind'; [apply (IH base Hb); intros c Hc; apply Hl; right; done|]. intros [[b' r] m] (H1 & H2 & H3 & H4 & H5). cbn [wp].
      split; [done|]. split; [intros c [->|Hc]%elem_of_cons; [apply Hl; left|auto]|]. split; [|split; [simpl; lia|destruct m; [simpl; lia|]]].
      * simpl in *. rewrite !fmap_app in *. rewrite (Permutation_app_swap_app (norm <$> b')), H3. apply Permutation_app_swap_app.
      * destruct H5 as (-> & -> & H5). split; [done|]. split; [done|]. intros c e [->|Hc]%elem_of_cons; [apply Ht|eauto].
Qed.

Inductive apart : list (list (Z * Z)) -> Prop :=
| apart_nil : apart []
| apart_cons c l : (forall o e, o ∈ l -> chain_end c e -> chain_end o e -> False) -> apart l -> apart (c :: l).
Lemma apart_look l i j c o e : apart l -> i < j -> l @ i = Some c -> l @ j = Some o -> chain_end c e -> chain_end o e -> False.
Proof.
  intros Ha. revert i j. induction Ha as [|x l Hx Ha IH]; intros i j Hij Hi Hj; [rewrite zlook_nil in Hi; done|].
  rewrite zlook_cons in Hi, Hj. destruct (Z.eqb_spec i 0) as [->|].
  - injection Hi as <-. replace (j =? 0) with false in Hj by lia. apply Hx. eapply zlook_elem; done.
  - assert (0 < i) by (apply zlook_Some_lt in Hi; lia). replace (j =? 0) with false in Hj by lia. apply (IH (i - 1) (j - 1)); (done || lia).
Qed.

Lemma sweep_wp f tab : (length tab < f)%nat -> (forall c, c ∈ tab -> okc c) -> wp (sweep f tab) (fun '(r, m) =>
   (forall c, c ∈ r -> okc c) /\ norm <$> concat r ≡ₚ norm <$> concat tab /\ (length r <= length tab)%nat /\
   if m : bool then (length r < length tab)%nat else r = tab /\ apart tab) False.
Proof.
  revert tab. induction f as [|f IH]; intros tab Hf Hok; [lia|]. cbn [sweep]. destruct tab as [|base l]; [simpl; repeat (split; [done|]); constructor|].
  eapply wp_bind'; [apply absorb_wp; [apply Hok; left|intros c Hc; apply Hok; right; done]|]. intros [[b r] m] (Hb & Hr & Hp & Hlen & Hm).
  eapply wp_bind'; [apply IH; [simpl in Hf; lia|done]|]. intros [r' m'] (Hr' & Hp' & Hlen' & Hm'). cbn [wp].
  split; [intros c [->|Hc]%elem_of_cons; auto|]. split; [|split; [simpl; lia|]].
  - rewrite <- Hp. simpl. rewrite !fmap_app, Hp'. done.
  - destruct m; simpl; [lia|]. destruct Hm as (-> & -> & Hap). destruct m'; [simpl; lia|]. destruct Hm' as [-> Ha]. split; [done|]. constructor; [|done].
    intros o e Ho. apply Hap. done.
Qed.
Lemma lines_wp f tab : (length tab < f)%nat -> (forall c, c ∈ tab -> okc c) -> wp (findMaxLengthLines f tab) (fun r =>
   (forall c, c ∈ r -> okc c) /\ norm <$> concat r ≡ₚ norm <$> concat tab /\ apart r) False.
Proof.
  revert tab. induction f as [|f IH]; intros tab Hf Hok; [lia|]. cbn [findMaxLengthLines].
  eapply wp_bind'; [apply sweep_wp; [lia|done]|]. intros [r m] (Hr & Hp & Hl & Hm). destruct m.
  - eapply wp_mono; [apply IH; [lia|done]| |done]. intros r' (H1 & H2 & H3). split; [done|]. split; [|done]. rewrite H2. done.
  - destruct Hm as [-> Ha]. simpl. done.
Qed.

Lemma init_ok d ps : da_vals d = flat ps -> da_nt d = zlen ps -> initPairs d = Ok ((fun p => [p]) <$> ps).
Proof.
  intros Hv Hn. unfold initPairs. rewrite Hv, Hn.
  match goal with |- forZ 0 _ ?f [] = _ => assert (Hw : wp (forZ 0 (zlen ps) f []) (fun r => r = (fun p => [p]) <$> ps) False) end; [|apply wp_ok_eq; done].
  apply (wp_forZ (fun i r => 0 <= i <= zlen ps /\ r = (fun p => [p]) <$> take (Z.to_nat i) ps)).
  - apply zlen_nonneg.
  - split; [pose proof (zlen_nonneg ps); lia|done].
  - intros i r Hi [_ ->]. destruct (ps @ i) as [[a b]|] eqn:E; [|apply zlook_None in E; lia]. destruct (flat_look ps i) as [H1 H2]. rewrite E in H1, H2.
    rewrite (rd_ok _ _ _ H1). cbn [bind]. rewrite (rd_ok _ _ _ H2). simpl. split; [lia|]. rewrite (take_succ _ _ _ E), fmap_app. done.
  - intros r [_ ->]. rewrite take_ge by (unfold zlen; lia). done.
Qed.
Lemma concat_single (ps : list (Z * Z)) : concat ((fun p => [p]) <$> ps) = ps.
Proof. induction ps as [|p ps IH]; [done|]. simpl. f_equal. exact IH. Qed.

Lemma chains_ok d ps : da_vals d = flat ps -> da_nt d = zlen ps -> exists cs,
  (let* l := initPairs d in findMaxLengthLines (Datatypes.S (length l)) l) = Ok cs /\
  (forall c, c ∈ cs -> okc c) /\ norm <$> concat cs ≡ₚ norm <$> ps /\ apart cs.
Proof.
  intros Hv Hn. rewrite (init_ok d ps Hv Hn). cbn [bind].
  assert (Hw := lines_wp (Datatypes.S (length ((fun p : Z * Z => [p]) <$> ps))) ((fun p => [p]) <$> ps) ltac:(lia)).
  destruct (wp_ok _ _ (Hw ltac:(intros c (p & -> & _)%elem_of_list_fmap; split; [done|]; eexists _, _; simpl; done))) as (cs & Hcs & H1 & H2 & H3).
  exists cs. split; [done|]. split; [done|]. split; [|done]. rewrite H2, concat_single. done.
Qed.

Lemma two_comp d : da_wf d -> da_nc d = 2 -> exists ps, da_vals d = flat ps /\ da_nt d = zlen ps.
Proof.
  intros Hwf Hc. pose proof (da_wf_len d Hwf) as (Hl & _). rewrite Hc in Hl. destruct (flat_surj (da_vals d) (da_nt d)) as (ps & H1 & H2); [lia|]. eauto.
Qed.

Lemma split_ok d : da_alloc d = true -> da_wf d -> da_nc d = 2 -> exists ps cs, da_vals d = flat ps /\
  splitPairsIntoChains d = Ok (flat <$> cs) /\ (exists l, l ≡ₚ ps /\ Forall2 same_pair (concat cs) l) /\
  (forall c, c ∈ cs -> c <> [] /\ consecutive c) /\
  (forall i j c c' e, i <> j -> cs @ i = Some c -> cs @ j = Some c' -> chain_end c e -> ~ chain_end c' e).
Proof.
  intros Ha Hwf Hc. destruct (two_comp d Hwf Hc) as (ps & Hv & Hn). unfold splitPairsIntoChains, checkAllocated. rewrite Ha, Hc. cbn [negb ifthrow Z.eqb Pos.eqb].
  destruct (Z.eqb_spec (da_nt d) 0) as [Hz|Hz].
  { exists ps, []. assert (ps = []) as ->. { destruct ps; [done|]. rewrite zlen_cons in Hn. pose proof (zlen_nonneg ps). lia. }
    split; [done|]. split; [done|]. split; [exists []; split; [done|constructor]|]. split; [intros c Hc'; apply elem_of_nil in Hc'; done|].
    intros i j c c' e _ Hi. rewrite zlook_nil in Hi. done. }
  destruct (chains_ok d ps Hv Hn) as (cs & Hcs & Hok & Hp & Hap). exists ps, cs. split; [done|]. split.
  { destruct (initPairs d) as [l| | |]; simpl in *; try done. rewrite Hcs. done. }
  split; [apply norm_perm_flips; done|]. split.
  - intros c Hin. destruct (Hok c Hin) as (? & a & b & Hw). split; [done|]. eapply walk_consecutive; done.
  - intros i j c c' e Hij Hi Hj H1 H2. destruct (Z.lt_total i j) as [?|[?|?]]; [|done|]; eapply apart_look; eauto.
Qed.

Lemma sortChain_ok d r : da_wf d -> sortToHaveConsecutivePairs d = Ok r -> exists ps c, da_vals d = flat ps /\ r = flat c /\
  consecutive c /\ exists l, l ≡ₚ ps /\ Forall2 same_pair c l.
Proof.
  intros Hwf H. unfold sortToHaveConsecutivePairs, checkAllocated in H. destruct (da_alloc d) eqn:Ha; [|done]. cbn [negb ifthrow] in H.
  destruct (Z.eqb_spec (da_nc d) 2) as [Hc|]; [|done]. cbn [negb ifthrow] in H. destruct (two_comp d Hwf Hc) as (ps & Hv & Hn).
  destruct (Z.eqb_spec (da_nt d) 0) as [Hz|Hz].
  { injection H as <-. exists ps, ps. assert (ps = []) as ->. { destruct ps; [done|]. rewrite zlen_cons in Hn. pose proof (zlen_nonneg ps). lia. }
    split; [done|]. split; [done|]. split; [intros i p q Hp; rewrite zlook_nil in Hp; done|exists []; split; [done|constructor]]. }
  destruct (chains_ok d ps Hv Hn) as (cs & Hcs & Hok & Hp & Hap).
  destruct (initPairs d) as [l| | |]; simpl in *; try done. rewrite Hcs in H. simpl in H. destruct cs as [|c [|c' cs]]; try done. injection H as <-.
  exists ps, c. split; [done|]. split; [done|]. destruct (Hok c (elem_of_list_here _ _)) as (_ & a & b & Hw). split; [eapply walk_consecutive; done|].
  apply norm_perm_flips. simpl in Hp. rewrite app_nil_r in Hp. done.
Qed.

Lemma walk_linked l a c b v : (forall p, p ∈ c -> paired l p.1 p.2) -> walk a c b -> v ∈ flat c -> linked l a v.
Proof.
  intros Hp. revert a. induction c as [|p c IH]; intros a Hw Hv; [apply elem_of_nil in Hv; done|]. destruct Hw as [<- Hw].
  rewrite flat_cons, !elem_of_cons in Hv. assert (Hpp : linked l p.1 p.2) by (apply linked_once, Hp; left).
  destruct Hv as [->|[->|Hv]]; [apply linked_refl|done|]. eapply linked_trans; [exact Hpp|]. apply IH; [intros q Hq; apply Hp; right; done|done..].
Qed.
Lemma same_paired ps p q : p ∈ ps -> same_pair p q -> paired (flat ps) q.1 q.2.
Proof.
  intros Hp Hs. apply elem_of_zlook in Hp as [i Hi]. exists i. destruct q as [a b]. destruct Hs as [->| ->]; [left|right]; apply flat_pair_at; done.
Qed.
Lemma norm_elem a b p : norm <$> a ≡ₚ norm <$> b -> p ∈ a -> exists q, q ∈ b /\ same_pair q p.
Proof.
  intros H Hp. assert (Hn : norm p ∈ norm <$> b) by (rewrite <- H; apply elem_of_list_fmap_1; done).
  apply elem_of_list_fmap in Hn as (q & Hq & Hqb). exists q. split; [done|]. apply norm_same. done.
Qed.

Lemma sortChain_throw d : da_wf d -> da_alloc d = true -> da_nc d = 2 -> (forall x, occ x (da_vals d) <= 2) ->
  sortToHaveConsecutivePairs d = Throw <-> exists a b, a ∈ da_vals d /\ b ∈ da_vals d /\ ~ linked (da_vals d) a b.
Proof.
  intros Hwf Ha Hc Hdeg. destruct (two_comp d Hwf Hc) as (ps & Hv & Hn). unfold sortToHaveConsecutivePairs, checkAllocated. rewrite Ha, Hc. cbn [negb ifthrow Z.eqb Pos.eqb].
  rewrite Hv in *. destruct (Z.eqb_spec (da_nt d) 0) as [Hz|Hz].
  { assert (ps = []) as ->. { destruct ps; [done|]. rewrite zlen_cons in Hn. pose proof (zlen_nonneg ps). lia. }
    split; [done|]. intros (a & b & Hab & _). apply elem_of_nil in Hab. done. }
  destruct (chains_ok d ps Hv Hn) as (cs & Hcs & Hok & Hp & Hap).
  assert (Hpair : forall c p, c ∈ cs -> p ∈ c -> paired (flat ps) p.1 p.2).
  { intros c p Hcc Hpc. destruct (norm_elem (concat cs) ps p Hp) as (q & Hq & Hs); [apply elem_cc; eauto|]. eapply same_paired; done. }
  assert (Hocc : forall x, occ x (flat (concat cs)) <= 2) by (intros x; rewrite (norm_occ x _ _ Hp); apply Hdeg).
  destruct (initPairs d) as [l| | |]; simpl in *; try done. rewrite Hcs. simpl. clear Hcs.
  assert (Hone : forall c, cs = [c] -> forall a b, a ∈ flat ps -> b ∈ flat ps -> linked (flat ps) a b).
  { intros c -> a b Hia Hib. destruct (Hok c (elem_of_list_here _ _)) as (_ & x & y & Hw).
    assert (Hall : forall v, v ∈ flat ps -> linked (flat ps) x v).
    { intros v Hvv. apply (walk_linked _ x c y); [intros p Hpc; apply (Hpair c); [left|done]|done|]. apply elem_of_list_In. 
      assert (Hpm : flat ps ≡ₚ flat c). { rewrite <- (norm_flat ps), <- (norm_flat c). apply flat_perm. simpl in Hp. rewrite app_nil_r in Hp. symmetry. done. }
      apply elem_of_list_In. rewrite <- Hpm. done. }
    eapply linked_trans; [apply linked_sym, Hall; done|apply Hall; done]. }
  split.
  2:{ intros (a & b & Hia & Hib & Hnl). destruct cs as [|c [|c' cs]]; try done. exfalso. apply Hnl. apply (Hone c); done. }
  intros Hthrow. destruct cs as [|c [|c' cs]]; [|done|].
  { exfalso. simpl in Hp. apply Permutation_nil_l in Hp. destruct ps; [rewrite Hn in Hz; done|done]. }
  assert (Hex : forall c, okc c -> exists v, v ∈ flat c).
  { intros [|p x] [Hx _]; [done|]. exists p.1. left. }
  destruct (Hex c (Hok c (elem_of_list_here _ _))) as [a Hca]. destruct (Hex c' (Hok c' ltac:(right; left))) as [b Hcb].
  set (CS := c :: c' :: cs) in *.
  assert (Hin : forall v x, x ∈ CS -> v ∈ flat x -> v ∈ flat ps).
  { intros v x Hx Hvx. assert (Hpm : flat ps ≡ₚ flat (concat CS)). { rewrite <- (norm_flat ps), <- (norm_flat (concat CS)). apply flat_perm. symmetry. done. }
    rewrite Hpm. apply elem_flat in Hvx as (p & Hpx & Hvp). apply elem_flat. exists p. split; [|done]. apply elem_cc. eauto. }
  exists a, b. split; [apply (Hin _ c); [left|done]|]. split; [apply (Hin _ c'); [right; left|done]|]. intros Hl.
  (* no node belongs to two chains *)
  assert (Hdis : forall i j x y v, i < j -> CS @ i = Some x -> CS @ j = Some y -> v ∈ flat x -> v ∈ flat y -> False).
  { intros i j x y v Hij Hi Hj Hvx Hvy. destruct (zsplit _ _ _ Hi) as (l1 & l2 & E & Hl1). rewrite E in Hj. pose proof (zlook_Some_lt _ _ _ Hi).
    rewrite zlook_app_r in Hj by lia. rewrite zlook_cons in Hj. replace (j - zlen l1 =? 0) with false in Hj by lia. destruct (zsplit _ _ _ Hj) as (l3 & l4 & E2 & _).
    assert (Hsum : occ v (flat x) + occ v (flat y) <= 2).
    { pose proof (Hocc v) as Ho. rewrite E, E2 in Ho. rewrite concat_app in Ho. simpl in Ho. rewrite concat_app in Ho. simpl in Ho. rewrite !flat_app, !occ_app in Ho.
      pose proof (occ_nonneg v (flat (concat l1))). pose proof (occ_nonneg v (flat (concat l3))). pose proof (occ_nonneg v (flat (concat l4))). lia. }
    destruct (Hok x (zlook_elem _ _ _ Hi)) as (Hx & ax & bx & Hwx).
    assert (Hy' : CS @ j = Some y). { rewrite E, zlook_app_r by lia. rewrite zlook_cons. replace (j - zlen l1 =? 0) with false by lia. done. }
    destruct (Hok y (zlook_elem _ _ _ Hy')) as (Hy & ay & by' & Hwy).
    pose proof (occ_elem _ _ Hvx). pose proof (occ_elem _ _ Hvy).
    destruct (decide (v = ax \/ v = bx)) as [Hex'|Hnx]; [destruct (decide (v = ay \/ v = by')) as [Hey|Hny]|].
    - apply (apart_look CS i j x y v Hap Hij Hi Hy'); [apply (walk_ends ax _ bx)|apply (walk_ends ay _ by')]; done.
    - pose proof (walk_inner _ _ _ v Hwy Hvy ltac:(tauto) ltac:(tauto)). lia.
    - pose proof (walk_inner _ _ _ v Hwx Hvx ltac:(tauto) ltac:(tauto)). lia. }
  assert (Hsame : forall i x w v, CS @ i = Some x -> v ∈ flat x -> linked (flat ps) v w -> w ∈ flat x).
  { intros i x w v Hi Hvx Hvw. induction Hvw as [v|v u w Hvu _ IH]; [done|]. apply IH.
    assert (Hq : exists q, q ∈ ps /\ same_pair (v, u) q).
    { destruct Hvu as [k [Hk|Hk]]; apply flat_pair_at in Hk; eexists; (split; [eapply zlook_elem; exact Hk|]); [left|right]; done. }
    destruct Hq as (q & Hq & Hs). destruct (norm_elem ps (concat CS) q) as (q' & Hq' & Hs'); [symmetry; done|done|].
    apply elem_cc in Hq' as (y & Hy & Hqy). apply elem_of_zlook in Hy as [j Hj].
    assert (Hvu' : v ∈ flat y /\ u ∈ flat y).
    { apply norm_same in Hs, Hs'. assert (Hvq : same_pair (v, u) q') by (apply norm_same; congruence). rewrite !elem_flat. destruct Hvq as [<-|[= -> ->]]; split; eexists; (split; [exact Hqy|]); simpl; auto. }
    destruct Hvu' as [Hvy Huy]. assert (i = j) as <-; [|congruence].
    destruct (Z.lt_total i j) as [?|[?|?]]; [exfalso; eauto|done|exfalso; eauto]. }
  apply (Hdis 0 1 c c' b); [lia|done|done| |done]. apply (Hsame 0 c b a); done.
Qed.
