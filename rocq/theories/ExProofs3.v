(** Expressions: the tree of a text. *)
From Coq Require Import Ascii String ZifyBool ZifyNat.
From stdpp Require Import strings.
From Verif Require Import Base ExModel ExSpec ExProofs ExProofs2.
Local Open Scope Z_scope.

Lemma zlen_cons' {A} (x : A) l : zlen (x :: l) = zlen l + 1.
Proof. unfold zlen. cbn [length]. lia. Qed.
Lemma zlen_app' {A} (a b : list A) : zlen (a ++ b) = zlen a + zlen b.
Proof. unfold zlen. rewrite app_length. lia. Qed.
Lemma zlen_nonneg' {A} (l : list A) : 0 <= zlen l.
Proof. unfold zlen. lia. Qed.
Lemma firstOf_at p a c b : Forall (fun x => p x = false) a -> p c = true -> firstOf p (a ++ c :: b) = Some (zlen a).
Proof.
  intros H E. induction H as [|x a Hx _ IH]; cbn [app firstOf]; [by rewrite E|]. rewrite Hx, IH. cbn. by rewrite zlen_cons'.
Qed.
Lemma firstOf_none p a : Forall (fun x => p x = false) a -> firstOf p a = None.
Proof. intros H. induction H as [|x a Hx _ IH]; cbn [firstOf]; [done|]. by rewrite Hx, IH. Qed.
Lemma findFirst_at p a c b : Forall (fun x => p x = false) a -> p c = true -> findFirst p (a ++ c :: b) 0 = zlen a.
Proof.
  intros H E. unfold findFirst. rewrite zlen_app', zlen_cons'. pose proof (zlen_nonneg' a). pose proof (zlen_nonneg' b).
  rewrite (proj2 (Z.leb_gt _ _)) by lia. change (drop (Z.to_nat 0) (a ++ c :: b)) with (a ++ c :: b). rewrite firstOf_at by done. lia.
Qed.
Lemma substr_from a b : zlen (a ++ b) <= npos -> substr (a ++ b) (zlen a) npos = Ok b.
Proof.
  intros H. unfold substr. rewrite zlen_app' in *. pose proof (zlen_nonneg' a). pose proof (zlen_nonneg' b).
  rewrite (proj2 (Z.ltb_ge _ _)) by lia. cbn [ifthrow]. rewrite !Z.min_r, Z.min_l by lia. f_equal.
  replace (Z.to_nat (zlen a)) with (length a) by (unfold zlen; lia). rewrite drop_app. rewrite take_ge; [done|]. unfold zlen. lia.
Qed.
Lemma substr_to a b : substr (a ++ b) 0 (zlen a) = Ok a.
Proof.
  unfold substr. pose proof (zlen_nonneg' a). pose proof (zlen_nonneg' b). rewrite zlen_app'. rewrite (proj2 (Z.ltb_ge _ _)) by lia. cbn [ifthrow]. f_equal.
  rewrite (Z.min_l 0) by lia. change (drop (Z.to_nat 0) (a ++ b)) with (a ++ b). rewrite Z.min_l by lia. replace (Z.to_nat (zlen a)) with (length a) by (unfold zlen; lia). apply take_app.
Qed.
Lemma substr_mid a b c : substr (a ++ b ++ c) (zlen a) (zlen b) = Ok b.
Proof.
  unfold substr. pose proof (zlen_nonneg' a). pose proof (zlen_nonneg' b). pose proof (zlen_nonneg' c). rewrite !zlen_app'. rewrite (proj2 (Z.ltb_ge _ _)) by lia. cbn [ifthrow]. f_equal.
  rewrite !Z.min_l by lia. replace (Z.to_nat (zlen a)) with (length a) by (unfold zlen; lia). rewrite drop_app. replace (Z.to_nat (zlen b)) with (length b) by (unfold zlen; lia). apply take_app.
Qed.

(** *** Leaves *)
Definition isMinus (s : sign) : bool := match s with Minus => true | _ => false end.
Lemma existsb_special m : Forall okc m -> existsb (isIn special) m = false.
Proof. induction 1 as [|c m H _ IH]; [done|]. cbn [existsb]. apply ok_facts in H. rewrite IH. by replace (isIn special c) with false by (symmetry; tauto). Qed.
Lemma tryLeaf_at s c t : isIn signs c = false -> zlen (showSign s ++ c :: t) <= npos ->
  tryLeaf (showSign s ++ c :: t) = if existsb (isIn special) (c :: t) then Ok None else let* l := buildLeaf (c :: t) in Ok (Some (l, isMinus s)).
Proof.
  intros H L. unfold tryLeaf. rewrite findFirst_at; [|destruct s; repeat constructor|unfold notIn; by rewrite H]. rewrite substr_from by done. cbn [bind].
  destruct (existsb _ _); [done|]. destruct (buildLeaf _); cbn [bind]; [|done..]. f_equal. f_equal. f_equal.
  replace (Z.to_nat (zlen (showSign s))) with (length (showSign s)) by (unfold zlen; lia). rewrite take_app. by destruct s.
Qed.
Lemma takeDigits_all l : digits l -> takeDigits l = (l, []).
Proof. induction 1 as [|c l H _ IH]; [done|]. cbn [takeDigits]. by rewrite H, IH. Qed.
Lemma takeDigits_app l c r : digits l -> isIn figures c = false -> takeDigits (l ++ c :: r) = (l, c :: r).
Proof. intros H F. induction H as [|x l H _ IH]; cbn [app takeDigits]; [by rewrite F|]. by rewrite H, IH. Qed.
Lemma buildLeaf_num l : litOk l -> l_frac l = None -> l_exp l = None -> buildLeaf (l_int l) = Ok (LVal (litDec l)).
Proof.
  intros (H1 & H2 & _) E F. unfold buildLeaf, readDouble. rewrite takeDigits_all by done. rewrite app_nil_r. rewrite bool_decide_eq_false_2 by done. cbn [readExponent].
  unfold litDec. rewrite E, F. cbn [default]. by rewrite app_nil_r.
Qed.
Lemma buildLeaf_var n : nameOk n -> buildLeaf n = Ok (LVar n).
Proof.
  intros (_ & c & r & -> & H1 & H2). unfold buildLeaf, readDouble. cbn [takeDigits]. rewrite H1, H2. cbn [app]. by rewrite bool_decide_eq_true_2.
Qed.

(** *** Functions and brackets *)
Lemma charAt_last l c : charAt (l ++ [c]) (zlen (l ++ [c]) - 1) = c.
Proof. unfold charAt. rewrite zlen_app', zlen_cons'. replace (zlen l + (zlen (@nil ascii) + 1) - 1) with (zlen l) by (unfold zlen; cbn; lia). rewrite zlook_app_r by lia. rewrite Z.sub_diag. done. Qed.
Lemma charAt_last' e c : last e = Some c -> charAt e (zlen e - 1) = c.
Proof. intros H. apply last_Some in H as (l & ->). apply charAt_last. Qed.
Lemma parseUnary_par pre a : Forall (fun c => is "(" c = false) pre -> bal a -> zlen (pre ++ "("%char :: a ++ [")"%char]) <= npos ->
  parseUnary (pre ++ "("%char :: a ++ [")"%char]) =
  if existsb (isIn operators) pre && existsb (notIn operators) pre then Ok None else
  let nb := zlen (filter (fun c => is "," c = true) a) + 1 in
  let* fs := if existsb (notIn operators) pre then buildAll [pre] nb else buildAll ((fun c => [c]) <$> pre) nb in
  Ok (Some (splitCommas a, fs)).
Proof.
  intros H B L. unfold parseUnary.
  assert (E : charAt (pre ++ "("%char :: a ++ [")"%char]) (zlen (pre ++ "("%char :: a ++ [")"%char]) - 1) = ")"%char).
  { apply charAt_last'. rewrite app_comm_cons, app_assoc. apply last_snoc. }
  rewrite E. change (negb (is ")" ")")) with false. cbn iota.
  rewrite findFirst_at by done.
  assert (T : take (length (pre ++ "("%char :: a ++ [")"%char]) - 1) (pre ++ "("%char :: a ++ [")"%char]) = pre ++ "("%char :: a).
  { rewrite app_comm_cons, app_assoc. rewrite app_length. cbn [length]. replace (_ + 1 - 1)%nat with (length (pre ++ "("%char :: a)) by lia. apply take_app. }
  rewrite T, rev_app_distr. cbn [rev]. rewrite <- app_assoc. rewrite findOpen_bal by (done || lia). cbn [app findOpen]. change (is ")" "(") with false. change (is "(" "(") with true. cbn iota.
  change (0 =? 0) with true. cbn iota. replace (zlen (rev pre)) with (zlen pre) by (unfold zlen; by rewrite rev_length). rewrite Z.eqb_refl. cbn [negb].
  rewrite substr_to. cbn [bind]. destruct (existsb (isIn operators) pre && existsb (notIn operators) pre); [done|].
  rewrite zlen_app', zlen_cons', zlen_app' in *. pose proof (zlen_nonneg' pre). pose proof (zlen_nonneg' a). change (zlen [")"%char]) with 1 in *.
  rewrite !Z.mod_small by lia.
  replace (zlen pre + 1) with (zlen (pre ++ ["("%char])) by (by rewrite zlen_app').
  replace (zlen pre + (zlen a + 1 + 1) - zlen pre - 2) with (zlen a) by lia.
  replace (pre ++ "("%char :: a ++ [")"%char]) with ((pre ++ ["("%char]) ++ a ++ [")"%char]) by (by rewrite <- app_assoc).
  rewrite substr_mid. done.
Qed.
Lemma existsb_l {A} (p : A -> bool) a x b : p x = true -> existsb p (a ++ x :: b) = true.
Proof. intros H. rewrite existsb_app. cbn [existsb]. rewrite H. by rewrite orb_true_l, orb_true_r. Qed.
Lemma firstOf_lt p l k : firstOf p l = Some k -> 0 <= k < zlen l /\ exists a c b, l = a ++ c :: b /\ zlen a = k /\ p c = true.
Proof.
  revert k. induction l as [|c l IH]; intros k H; [done|]. cbn [firstOf] in H. rewrite zlen_cons'. pose proof (zlen_nonneg' l). destruct (p c) eqn:E.
  - injection H as <-. split; [lia|]. exists [], c, l. done.
  - destruct (firstOf p l) as [j|] eqn:F; [|done]. cbn in H. injection H as <-. destruct (IH j eq_refl) as (? & a & c' & b & -> & <- & P). split; [lia|].
    exists (c :: a), c', b. split; [done|]. split; [by rewrite zlen_cons'|done].
Qed.
Lemma parseUnary_bin op l r : wf (EBin op l r) -> zlen (show (EBin op l r)) <= npos -> parseUnary (show (EBin op l r)) = Ok None.
Proof.
  intros W L. cbn [wf] in W. destruct W as (Wl & Wr & V4 & _). cbn [show] in *. pose proof (show_bal r Wr) as Br. destruct (op_facts op V4) as (_ & O & _ & E1 & E2 & _).
  destruct (last (show r)) as [c|] eqn:E; [|apply last_None in E; by apply show_nonempty in E].
  assert (E' : last (show l ++ op :: show r) = Some c) by (rewrite last_app, last_cons, E; done).
  destruct (decide (c = ")"%char)) as [->|N].
  2:{ unfold parseUnary. rewrite (charAt_last' _ _ E'). unfold is at 1. rewrite (proj2 (Ascii.eqb_neq _ _)) by done. done. }
  destruct (bal_last _ Br E) as (a & b & F & Bb). rewrite F in *. 
  replace (show l ++ op :: a ++ "("%char :: b ++ [")"%char]) with ((show l ++ op :: a) ++ "("%char :: b ++ [")"%char]) in * by (rewrite <- app_assoc; done).
  set (pre := show l ++ op :: a) in *.
  destruct (decide (Forall (fun c => is "(" c = false) pre)) as [A|A].
  - rewrite parseUnary_par by done. replace (existsb (isIn operators) pre) with true by (symmetry; by apply existsb_l).
    replace (existsb (notIn operators) pre) with true; [done|]. symmetry. unfold pre. destruct (show_head l Wl) as (sg & x & t & -> & _ & Hx). rewrite <- app_assoc. apply existsb_l. unfold notIn. by rewrite Hx.
  - unfold parseUnary. rewrite (charAt_last' _ _ E'). change (negb (is ")" ")")) with false. cbn iota.
    assert (T : take (length (pre ++ "("%char :: b ++ [")"%char]) - 1) (pre ++ "("%char :: b ++ [")"%char]) = pre ++ "("%char :: b).
    { rewrite app_comm_cons, app_assoc. rewrite app_length. cbn [length]. replace (_ + 1 - 1)%nat with (length (pre ++ "("%char :: b)) by lia. apply take_app. }
    rewrite T, rev_app_distr. cbn [rev]. rewrite <- app_assoc. rewrite findOpen_bal by (done || lia). cbn [app findOpen]. change (is ")" "(") with false. change (is "(" "(") with true. cbn iota.
    change (0 =? 0) with true. cbn iota. replace (zlen (rev pre)) with (zlen pre) by (unfold zlen; by rewrite rev_length).
    assert (X : findFirst (is "(") (pre ++ "("%char :: b ++ [")"%char]) 0 < zlen pre); [|by rewrite (proj2 (Z.eqb_neq _ _)) by lia].
    apply not_Forall_Exists in A; [|apply _]. clear - A. apply Exists_exists in A as (x & Hx & P). 
    assert (G : exists a x b, pre = a ++ x :: b /\ Forall (fun c => is "(" c = false) a /\ is "(" x = true).
    { clearbody pre. induction pre as [|y pre IH]; [by apply elem_of_nil in Hx|]. destruct (is "(" y) eqn:Y; [exists [], y, pre; done|].
      apply elem_of_cons in Hx as [-> |Hx]; [exfalso; by apply P|]. destruct (IH Hx) as (u & z & v & -> & Hu & Hz). exists (y :: u), z, v. split; [done|]. split; [by constructor|done]. }
    destruct G as (u & y & v & -> & Hu & Hy). rewrite <- app_assoc. cbn [app]. rewrite findFirst_at by done. rewrite zlen_app', zlen_cons'. pose proof (zlen_nonneg' v). lia.
Qed.
Lemma splitCommas_one l : Forall (fun c => is "," c = false) l -> splitCommas l = [l].
Proof. induction 1 as [|c l H _ IH]; [done|]. cbn [splitCommas]. by rewrite H, IH. Qed.
Lemma splitCommas_app l r : Forall (fun c => is "," c = false) l -> splitCommas (l ++ ","%char :: r) = l :: splitCommas r.
Proof. induction 1 as [|c l H _ IH]; [done|]. cbn [app splitCommas]. by rewrite H, IH. Qed.
Definition commas (l : list ascii) : Z := zlen (filter (fun c => is "," c = true) l).
Lemma commas_none l : Forall (fun c => is "," c = false) l -> commas l = 0.
Proof. unfold commas. induction 1 as [|c l H _ IH]; [done|]. rewrite filter_cons_False by (by rewrite H). done. Qed.
Lemma commas_app a b : commas (a ++ b) = commas a + commas b.
Proof. unfold commas. by rewrite filter_app, zlen_app'. Qed.
Lemma commas_cons b : commas (","%char :: b) = 1 + commas b.
Proof. unfold commas. rewrite filter_cons_True by done. rewrite zlen_cons'. lia. Qed.
Lemma nocomma_chars e : wf e -> plain e -> nocomma e -> Forall (fun c => is "," c = false) (show e).
Proof.
  assert (K : forall l, Forall okc l -> Forall (fun c => is "," c = false) l) by (intros l H; eapply Forall_impl; [exact H|intros c Hc; apply ok_facts in Hc; tauto]).
  assert (G : forall s, Forall (fun c => is "," c = false) (showSign s)) by (intros []; repeat constructor).
  induction e as [sg l|sg n|sg e IH|f a IH|f a IHa b IHb|a IHa b IHb c IHc|op l IHl r IHr]; cbn [wf show plain nocomma]; intros W P N; try done; repeat first [rewrite Forall_app|rewrite Forall_cons|rewrite Forall_nil].
  - split; [done|]. rewrite plain_lit by tauto. apply K, digits_ok; exact (proj1 W).
  - split; [done|]. apply K, W.
  - repeat split; try done. apply IH; tauto.
  - repeat split; try done; [apply K, (unary_ok f)|apply IH]; tauto.
  - split; [apply IHl; tauto|]. split; [|apply IHr; tauto]. apply (op_facts op); tauto.
Qed.
Lemma ok_notop f : Forall okc f -> f <> [] -> existsb (isIn operators) f = false /\ existsb (notIn operators) f = true.
Proof.
  intros H N. assert (A : existsb (isIn operators) f = false).
  { clear N. induction H as [|c f Hc _ IH]; [done|]. cbn [existsb]. apply ok_facts in Hc. rewrite IH. by replace (isIn operators c) with false by (symmetry; tauto). }
  split; [done|]. destruct f as [|c f]; [done|]. cbn [existsb] in *. unfold notIn. apply orb_false_iff in A as [-> _]. done.
Qed.

(** *** The tree *)
Fixpoint tree (e : expr) : node :=
  match e with
  | ENum s l => Leaf (LVal (litDec l)) (isMinus s)
  | EVar s n => Leaf (LVar n) (isMinus s)
  | EPar s e => Sub [tree e] (match s with NoSign => [] | Plus => [FId] | Minus => [FUn (s2l "-")] end)
  | ECall f a => Sub [tree a] [FUn f]
  | ECall2 f a b => Sub [tree a; tree b] [FBin f]
  | EIf a b c => Sub [tree a; tree b; tree c] [FTer (s2l "if")]
  | EBin op l r =>
    let rest := if level l =? lvl op then match tree l with Sub ns fs => (ns, fs) | n => ([n], []) end else ([tree l], []) in
    Sub (rest.1 ++ [tree r]) (rest.2 ++ [fbin op]) end.
Lemma tree_spine k e : 0 <= k < 4 -> level e = k -> tree e = Sub (tree <$> (spine k e).1) (fbin <$> (spine k e).2).
Proof.
  intros K. induction e as [sg l|sg n|sg e IH|f a IH|f a IHa b IHb|a IHa b IHb c IHc|op l IHl r IHr]; intros V; try (cbn in V; lia).
  cbn [level] in V. cbn [spine tree]. rewrite (proj2 (Z.eqb_eq _ _) V). cbn [fst snd]. rewrite !fmap_app. rewrite V. destruct (level l =? k) eqn:E.
  - rewrite IHl by lia. done.
  - rewrite (flat_spine k l) by lia. done.
Qed.
Lemma allM_Forall {A B} (f : A -> res B) l l' : Forall2 (fun x y => f x = Ok y) l l' -> allM f l = Ok l'.
Proof. induction 1 as [|x y l l' H _ IH]; [done|]. cbn [allM]. rewrite H. cbn [bind]. by rewrite IH. Qed.
Lemma allM_show (f : list ascii -> res node) l : Forall (fun e => f (show e) = Ok (tree e)) l -> allM f (show <$> l) = Ok (tree <$> l).
Proof. induction 1 as [|x l H _ IH]; [done|]. rewrite !fmap_cons. cbn [allM]. rewrite H. cbn [bind]. by rewrite IH. Qed.
Lemma simplify_bin op l r : wf (EBin op l r) -> plain (EBin op l r) -> zlen (show (EBin op l r)) <= npos ->
  simplify (show (EBin op l r)) = Ok (SSub (show <$> (spine (lvl op) (EBin op l r)).1) (fbin <$> (spine (lvl op) (EBin op l r)).2)).
Proof.
  intros W P L. pose proof W as W'. cbn [wf] in W'. destruct W' as (Wl & Wr & V4 & Vl & Vr & Nr & Nl). pose proof (lvl_nonneg op) as V0.
  unfold simplify. assert (T : tryLeaf (show (EBin op l r)) = Ok None).
  { cbn [show] in *. destruct (show_head l Wl) as (sg & c & t & E & Hs & Hc). rewrite E in *. rewrite <- app_assoc in *. cbn [app] in *.
    assert (Q : exists s, sg = showSign s) by (destruct Hs as [->|[->| ->]]; [by exists NoSign|by exists Plus|by exists Minus]). destruct Q as (s & ->).
    rewrite tryLeaf_at; [|clear - Hc|done].
    - change (c :: t ++ op :: show r) with ((c :: t) ++ op :: show r). rewrite existsb_l; [done|]. by apply op_facts.
    - pose proof (all_chars (fun c => implb (isIn signs c) (isIn operators c)) ltac:(vm_compute; reflexivity) c) as A. cbv beta in A. rewrite Hc in A. by destruct (isIn signs c). }
  rewrite T. cbn [bind]. rewrite parseUnary_bin by done. cbn [bind].
  change parseForCmp with (parseAt 0). change parseForAddMin with (parseAt 1). change parseForMulDiv with (parseAt 2). change parseForPow with (parseAt 3).
  assert (F0 : lvl op <> 0 -> flat 0 (EBin op l r)) by (intros H; cbn; split; [done|]; destruct Nl as [Nl|[? _]]; [done|lia]).
  assert (F : forall k, 0 < k -> k < lvl op -> flat k (EBin op l r)) by (intros k H1 H2; unfold flat; rewrite (proj2 (Z.eqb_neq _ _)) by lia; done).
  destruct (kcases (lvl op)) as [E|[E|[E|E]]]; [lia|..]; rewrite E in *.
  - rewrite (parseAt_some 0) by done. done.
  - rewrite (parseAt_none 0) by (try done; by apply F0). cbn [bind]. rewrite (parseAt_some 1) by done. done.
  - rewrite (parseAt_none 0) by (try done; by apply F0). cbn [bind]. rewrite (parseAt_none 1) by (try done; by apply F). cbn [bind]. rewrite (parseAt_some 2) by done. done.
  - rewrite (parseAt_none 0) by (try done; by apply F0). cbn [bind]. rewrite (parseAt_none 1) by (try done; by apply F). cbn [bind].
    rewrite (parseAt_none 2) by (try done; by apply F). cbn [bind]. rewrite (parseAt_some 3) by done. done.
Qed.
Lemma simplify_call pre a fs nb : bal a -> Forall (fun c => is "(" c = false) pre -> existsb (isIn operators) pre && existsb (notIn operators) pre = false ->
  tryLeaf (pre ++ "("%char :: a ++ [")"%char]) = Ok None -> zlen (pre ++ "("%char :: a ++ [")"%char]) <= npos -> commas a + 1 = nb ->
  (if existsb (notIn operators) pre then buildAll [pre] nb else buildAll ((fun c => [c]) <$> pre) nb) = Ok fs ->
  simplify (pre ++ "("%char :: a ++ [")"%char]) = Ok (SSub (splitCommas a) fs).
Proof.
  intros B H1 H2 T L N F. unfold simplify. rewrite T. cbn [bind]. rewrite parseUnary_par by done. rewrite H2. cbv zeta. unfold commas in N. rewrite N, F. done.
Qed.
Lemma name_leaf f a : Forall okc f -> f <> [] -> zlen (f ++ "("%char :: a) <= npos -> tryLeaf (f ++ "("%char :: a) = Ok None.
Proof.
  intros H N L. destruct f as [|c f]; [done|]. assert (E := tryLeaf_at NoSign c (f ++ "("%char :: a)). cbn [showSign app] in E, L |- *. rewrite E; [| |exact L].
  - change (c :: f ++ "("%char :: a) with ((c :: f) ++ "("%char :: a). by rewrite existsb_l.
  - apply Forall_cons in H as [H _]. apply ok_facts in H. tauto.
Qed.
Lemma simplify_fun f a fn nb : Forall okc f -> f <> [] -> bal a -> zlen (f ++ "("%char :: a ++ [")"%char]) <= npos -> commas a + 1 = nb -> buildFunc f nb = Ok fn ->
  simplify (f ++ "("%char :: a ++ [")"%char]) = Ok (SSub (splitCommas a) [fn]).
Proof.
  intros H N B L C F. destruct (ok_notop f H N) as (X1 & X2). eapply simplify_call; try done.
  - eapply Forall_impl; [exact H|]. apply okc_np.
  - by rewrite X1.
  - by apply name_leaf.
  - rewrite X2. cbn [buildAll]. by rewrite F.
Qed.
Lemma parseDeep_show fuel : forall e, (length (show e) <= fuel)%nat -> wf e -> plain e -> zlen (show e) <= npos -> parseDeep fuel (show e) = Ok (tree e).
Proof.
  induction fuel as [|fuel IH]; intros e L W P Z.
  { destruct (show e) eqn:E; [by apply show_nonempty in E|cbn in L; lia]. }
  assert (IH' : forall x, (length (show x) < length (show e))%nat -> wf x -> plain x -> parseDeep fuel (show x) = Ok (tree x)).
  { intros x Lx Wx Px. apply IH; try done; [lia|]. unfold zlen in *. lia. }
  cbn [parseDeep]. destruct e as [sg l|sg n|sg e|f a|f a b|a b c|op l r].
  - cbn [wf show plain] in *. rewrite plain_lit in * by tauto. destruct W as (W1 & W2 & W3). destruct (l_int l) as [|c t] eqn:E; [done|].
    unfold simplify. rewrite tryLeaf_at; [|apply Forall_cons in W1 as [W1 _]; apply fig_ok, ok_facts in W1; tauto|done].
    rewrite existsb_special by (by apply digits_ok). rewrite <- E. rewrite buildLeaf_num; [done| |tauto|tauto]. split; [by rewrite E|]. split; [by rewrite E|done].
  - cbn [wf show plain] in *. pose proof W as (W1 & c & t & -> & _ & _). unfold simplify. rewrite tryLeaf_at; [|apply Forall_cons in W1 as [W1 _]; apply ok_facts in W1; tauto|done].
    rewrite existsb_special by done. by rewrite buildLeaf_var.
  - cbn [wf show plain] in *. destruct W as (W & N). pose proof (nocomma_chars _ W P N) as C.
    erewrite simplify_call; cycle 1.
    + by apply show_bal. + destruct sg; repeat constructor. + by destruct sg.
    + rewrite tryLeaf_at; [done|done|exact Z].
    + done.
    + by rewrite commas_none.
    + instantiate (1 := match sg with NoSign => [] | Plus => [FId] | Minus => [FUn (s2l "-")] end). by destruct sg.
    + cbn [bind]. rewrite splitCommas_one by done. cbn [allM]. rewrite IH'; [done| |done|done]. rewrite app_length. cbn [length]. rewrite app_length. cbn [length]. lia.
  - cbn [wf show plain] in *. destruct W as (W1 & W2 & W3 & W4). destruct (unary_ok f W1 W2) as (F1 & F2 & F3). pose proof (nocomma_chars _ W3 P W4) as C.
    rewrite (simplify_fun f (show a) (FUn f) 1); try done; [|by apply show_bal|by rewrite commas_none].
    cbn [bind]. rewrite splitCommas_one by done. cbn [allM]. rewrite IH'; [done| |done|done]. rewrite app_length. cbn [length]. rewrite app_length. cbn [length]. lia.
  - cbn [wf show plain] in *. destruct W as (W1 & Wa & Na & Wb & Nb). destruct P as (Pa & Pb). destruct (binary_ok f W1) as (F1 & F2 & F3). pose proof (nocomma_chars _ Wa Pa Na) as Ca. pose proof (nocomma_chars _ Wb Pb Nb) as Cb.
    replace (show a ++ ","%char :: show b ++ [")"%char]) with ((show a ++ ","%char :: show b) ++ [")"%char]) in * by (by rewrite <- app_assoc).
    rewrite (simplify_fun f _ (FBin f) 2); try done; cycle 1.
    + apply bal_app; [by apply show_bal|]. apply bal_c; [done|done|]. by apply show_bal.
    + rewrite commas_app, commas_cons, !commas_none by done. done.
    + cbn [bind]. rewrite splitCommas_app, splitCommas_one by done. cbn [allM]. rewrite !IH'; try done; rewrite !app_length; cbn [length]; rewrite !app_length; cbn [length]; lia.
  - cbn [wf show plain] in *. destruct W as (Wa & Na & Wb & Nb & Wc & Nc). destruct P as (Pa & Pb & Pc). destruct if_ok as (F1 & F3). pose proof (nocomma_chars _ Wa Pa Na) as Ca. pose proof (nocomma_chars _ Wb Pb Nb) as Cb. pose proof (nocomma_chars _ Wc Pc Nc) as Cc.
    replace (show a ++ ","%char :: show b ++ ","%char :: show c ++ [")"%char]) with ((show a ++ ","%char :: show b ++ ","%char :: show c) ++ [")"%char]) in * by (rewrite <- !app_assoc; cbn [app]; by rewrite <- !app_assoc).
    rewrite (simplify_fun (s2l "if") _ (FTer (s2l "if")) 3); try done; cycle 1.
    + apply bal_app; [by apply show_bal|]. apply bal_c; [done|done|]. apply bal_app; [by apply show_bal|]. apply bal_c; [done|done|]. by apply show_bal.
    + rewrite commas_app, commas_cons, commas_app, commas_cons, !commas_none by done. done.
    + cbn [bind]. rewrite !splitCommas_app, splitCommas_one by done. cbn [allM]. rewrite !IH'; try done; rewrite !app_length; cbn [length]; rewrite !app_length; cbn [length]; rewrite ?app_length; cbn [length]; lia.
  - rewrite simplify_bin by done. cbn [bind]. rewrite allM_show.
    + cbn [bind]. symmetry. f_equal. apply tree_spine; [|done]. pose proof (lvl_nonneg op). cbn [wf] in W. lia.
    + eapply Forall_impl; [by apply spine_smaller|]. intros x (Wx & Px & Lx). by apply IH'.
Qed.
