(** Expressions: brackets. *)
From Coq Require Import Ascii String ZifyBool ZifyNat.
From stdpp Require Import strings.
From Verif Require Import Base ExModel ExSpec ExProofs ExProofs2 ExProofs3 ExProofs4.
Local Open Scope Z_scope.

Lemma count_cons c x l : count c (x :: l) = (if is c x then 1 else 0) + count c l.
Proof.
  unfold count, is. destruct (Ascii.eqb_spec x c) as [E|E]; [rewrite filter_cons_True by done; rewrite zlen_cons'; lia|rewrite filter_cons_False by done; lia].
Qed.
Lemma is_eq a c : is a c = true <-> c = a.
Proof. unfold is. apply Ascii.eqb_eq. Qed.
Lemma check_counts l : forall lev, 0 <= lev -> checkBrackets lev l = Ok () -> (forall p, p `prefix_of` l -> count ")" p <= lev + count "(" p) /\ count ")" l = lev + count "(" l.
Proof.
  induction l as [|c l IH]; intros lev L H; cbn [checkBrackets] in H.
  - destruct (lev =? 0) eqn:E; [|done]. apply Z.eqb_eq in E. subst lev. split; [|done]. intros p P. apply prefix_nil_inv in P as ->. done.
  - assert (K : forall lev', (forall p, p `prefix_of` l -> count ")" p <= lev' + count "(" p) /\ count ")" l = lev' + count "(" l ->
      lev' = lev + (if is "(" c then 1 else 0) - (if is ")" c then 1 else 0) -> 0 <= lev -> (forall p, p `prefix_of` c :: l -> count ")" p <= lev + count "(" p) /\ count ")" (c :: l) = lev + count "(" (c :: l)).
    { intros lev' [H1 H2] E L'. split.
      - intros p P. destruct p as [|c' p]; [change (count ")" []) with 0; change (count "(" []) with 0; lia|]. apply prefix_cons_inv_1 in P as Pc. apply prefix_cons_inv_2 in P. subst c'. rewrite !count_cons. specialize (H1 p P). lia.
      - rewrite !count_cons. lia. }
    destruct (is "(" c) eqn:A.
    + assert (B : is ")" c = false) by (apply is_eq in A; subst c; done). rewrite B in K. apply (K (lev + 1)); [apply IH; [lia|done]|lia|done].
    + destruct (is ")" c) eqn:B.
      * destruct (lev =? 0) eqn:E; [done|]. cbn [ifthrow] in H. apply (K (lev - 1)); [apply IH; [lia|done]|lia|done].
      * apply (K lev); [by apply IH|lia|done].
Qed.
Definition parens (l : list ascii) : list ascii := filter (fun c => is "(" c || is ")" c = true) l.
Lemma check_parens l lev : checkBrackets lev (parens l) = checkBrackets lev l.
Proof.
  revert lev. induction l as [|c l IH]; intros lev; [done|]. unfold parens in *. destruct (is "(" c) eqn:A.
  - rewrite filter_cons_True by (by rewrite A). cbn [checkBrackets]. rewrite A. apply IH.
  - destruct (is ")" c) eqn:B.
    + rewrite filter_cons_True by (by rewrite A, B). cbn [checkBrackets]. rewrite A, B. by rewrite IH.
    + rewrite filter_cons_False by (by rewrite A, B). cbn [checkBrackets]. rewrite A, B. apply IH.
Qed.
Lemma parens_app a b : parens (a ++ b) = parens a ++ parens b.
Proof. apply filter_app. Qed.
Lemma parens_none l : Forall (fun c => is "(" c = false /\ is ")" c = false) l -> parens l = [].
Proof. unfold parens. induction 1 as [|c l [A B] _ IH]; [done|]. by rewrite filter_cons_False by (by rewrite A, B). Qed.
Lemma digits_np l : digits l -> Forall (fun c => is "(" c = false /\ is ")" c = false) l.
Proof. intros H. apply digits_ok in H. eapply Forall_impl; [exact H|]. apply okc_np. Qed.
Lemma takeDigits_split l : l = (takeDigits l).1 ++ (takeDigits l).2 /\ digits (takeDigits l).1.
Proof.
  induction l as [|c l [IH1 IH2]]; [by repeat constructor|]. cbn [takeDigits]. destruct (isIn figures c) eqn:E; cbn [fst snd]; [|by repeat constructor].
  split; [cbn [app]; by f_equal|by constructor].
Qed.
Lemma readExponent_np m f l d : readExponent m f l = Some (d, []) -> Forall (fun c => is "(" c = false /\ is ")" c = false) l.
Proof.
  unfold readExponent. destruct l as [|c r]; [done|]. destruct (is "e" c || is "E" c) eqn:E; [|by intros [=]].
  intros H. constructor. { apply orb_true_iff in E as [E|E]; apply is_eq in E; subst c; done. }
  assert (K : forall (neg : bool) r', (let '(x, r) := takeDigits r' in if bool_decide (x = []) then None else Some (Dec (digitsValue m) ((if neg then - digitsValue x else digitsValue x) - f), r)) = Some (d, []) -> Forall (fun c => is "(" c = false /\ is ")" c = false) r').
  { intros neg r'. destruct (takeDigits_split r') as [E1 E2]. destruct (takeDigits r') as [x y]. cbn [fst snd] in *. destruct (bool_decide (x = [])); [done|]. intros [= _ ->]. rewrite E1, app_nil_r. by apply digits_np. }
  destruct r as [|s r']; [apply (K false []); exact H|]. destruct (is "-" s) eqn:E1.
  - constructor; [apply is_eq in E1; subst s; done|]. apply (K true). exact H.
  - destruct (is "+" s) eqn:E2.
    + constructor; [apply is_eq in E2; subst s; done|]. apply (K false). exact H.
    + apply (K false). exact H.
Qed.
Lemma readDouble_np l d : readDouble l = Some (d, []) -> Forall (fun c => is "(" c = false /\ is ")" c = false) l.
Proof.
  unfold readDouble. destruct (takeDigits_split l) as [E1 E2]. destruct (takeDigits l) as [ip r]. cbn [fst snd] in *. subst l. intros H. apply Forall_app. split; [by apply digits_np|].
  destruct r as [|c r]; [done|]. destruct (is "." c) eqn:E.
  - destruct (takeDigits_split r) as [F1 F2]. destruct (takeDigits r) as [fp r']. cbn [fst snd] in *. subst r. destruct (bool_decide (ip ++ fp = [])); [done|].
    constructor; [apply is_eq in E; subst c; done|]. apply Forall_app. split; [by apply digits_np|]. by eapply readExponent_np.
  - destruct (bool_decide (ip ++ [] = [])); [done|]. by eapply readExponent_np.
Qed.
Lemma textOf_np fuel n : 0 <= n -> Forall (fun c => is "(" c = false /\ is ")" c = false) (textOf fuel n).
Proof.
  assert (K : forall d, 0 <= d < 10 -> is "(" (digitChar d) = false /\ is ")" (digitChar d) = false).
  { intros d H. assert (C : d = 0 \/ d = 1 \/ d = 2 \/ d = 3 \/ d = 4 \/ d = 5 \/ d = 6 \/ d = 7 \/ d = 8 \/ d = 9) by lia.
    destruct C as [->|[->|[->|[->|[->|[->|[->|[->|[->| ->]]]]]]]]]; done. }
  revert n. induction fuel as [|fuel IH]; intros n H; cbn [textOf]; [done|]. destruct (n <? 10) eqn:E.
  - constructor; [|done]. apply K. lia.
  - apply Forall_app. split; [apply IH; apply Z.div_pos; lia|]. constructor; [|done]. apply K. apply Z.mod_pos_bound. lia.
Qed.
Lemma replace_parens text id bg en r : 0 <= id -> 0 <= bg -> replaceAndTraduce text id bg en = Ok r -> parens r.1.1 = parens text.
Proof.
  intros I B. unfold replaceAndTraduce, substr. pose proof (textOf_np 20 id I) as TN. revert TN. generalize (textOf 20 id). intros t0 TN. destruct (zlen text <? bg) eqn:E; [done|]. cbn [ifthrow bind]. rewrite (Z.min_l bg) by lia.
  set (n := Z.to_nat (Z.min _ _)). destruct (readDouble (take n (drop (Z.to_nat bg) text))) as [[d [|]]|] eqn:R; [|done|done]. intros [= <-]. cbn [fst snd].
  rewrite !parens_app. rewrite (parens_none t0) by done. apply readDouble_np in R. cbn [app].
  replace (parens text) with (parens (take (Z.to_nat bg) text ++ drop (Z.to_nat bg) text)) by (by rewrite take_drop). rewrite parens_app. f_equal. set (l := drop (Z.to_nat bg) text) in *. replace (parens l) with (parens (take n l ++ drop n l)) by (by rewrite take_drop). rewrite parens_app, (parens_none (take n l)) by done. cbn [app]. f_equal.
  unfold l in *. rewrite drop_drop. set (t := take n (drop (Z.to_nat bg) text)) in *.
  assert (Lt : (Z.to_nat (bg + zlen t) = Z.to_nat bg + length t)%nat) by (unfold zlen; lia). rewrite Lt. unfold t. rewrite take_length. rewrite drop_length.
  destruct (decide (n <= length text - Z.to_nat bg)%nat) as [D|D]; [by rewrite Nat.min_l by lia|]. rewrite Nat.min_r by lia. rewrite !drop_ge by lia. done.
Qed.
Lemma firstOf_nonneg p l k : firstOf p l = Some k -> 0 <= k.
Proof. intros H. apply firstOf_lt in H. lia. Qed.
Lemma findFirst_nonneg p l from : 0 <= from -> 0 <= findFirst p l from.
Proof. intros H. unfold findFirst. destruct (zlen l <=? from); [done|]. destruct (firstOf p (drop (Z.to_nat from) l)) eqn:E; [|done]. apply firstOf_nonneg in E. lia. Qed.
Lemma fillLoop_parens fuel lgth : forall text pos id vals r, 0 <= pos -> 0 <= id -> fillLoop fuel lgth text pos id vals = Ok r -> parens r.1 = parens text.
Proof.
  induction fuel as [|fuel IH]; intros text pos id vals r P I; [done|]. cbn [fillLoop]. destruct (pos =? npos); [by intros [= <-]|].
  pose proof (findFirst_nonneg (isIn figures) text pos P) as P2. set (pos2 := findFirst (isIn figures) text pos) in *. destruct (pos2 =? npos); [by intros [= <-]|].
  destruct ((0 <? pos2) && notIn beforeNumber (charAt text (pos2 - 1))). { intros H. apply (IH _ (findFirst (notIn figures) text pos2) id vals); [by apply findFirst_nonneg|done|exact H]. }
  destruct ((0 <? pos2) && is ")" (charAt text (pos2 - 1))); [done|]. cbn [ifthrow].
  assert (LAST : forall r, (let* r := replaceAndTraduce text id pos2 npos in Ok (r.1.1, vals ++ [r.2])) = Ok r -> parens r.1 = parens text).
  { intros r0. destruct (replaceAndTraduce text id pos2 npos) eqn:E; [|done..]. cbn [bind]. intros [= <-]. cbn [fst]. exact (replace_parens _ _ _ _ _ I P2 E). }
  assert (GO : forall p5 r, (let* r := replaceAndTraduce text id pos2 p5 in fillLoop fuel lgth r.1.1 ((p5 + r.1.2) mod (npos + 1)) (id + 1) (vals ++ [r.2])) = Ok r -> parens r.1 = parens text).
  { intros p5 r0. destruct (replaceAndTraduce text id pos2 p5) as [x| | |] eqn:E; [|done..]. cbn [bind]. intros H. apply IH in H; [|apply Z.mod_pos_bound; done|lia]. rewrite H. exact (replace_parens _ _ _ _ _ I P2 E). }
  destruct (findFirst (notIn figures) text pos2 =? npos); [apply LAST|]. cbv zeta.
  set (pos3 := if is "." (charAt text (findFirst (notIn figures) text pos2)) then _ else _). destruct (pos3 <? lgth); [|apply LAST].
  destruct (findFirst (notIn figures) text pos3 =? npos); [apply LAST|]. destruct (negb _); [apply GO|]. destruct (_ <? lgth); [|done].
  destruct (lgth <=? _); [done|]. cbn [ifthrow]. destruct (_ =? _); [done|]. cbn [ifthrow]. apply GO.
Qed.
Lemma parse_balanced text n : parse (s2l text) = Ok n -> balanced (s2l text).
Proof.
  unfold parse. cbv zeta. destruct (bool_decide _); [done|]. cbn [ifthrow]. destruct (fillValuesInExpr _) as [[e vals]| | |] eqn:F; [|done..]. cbn [bind].
  destruct (checkBrackets 0 e) as [[]| | |] eqn:C; [|done..]. intros _. unfold fillValuesInExpr in F. apply fillLoop_parens in F; [|done|done]. cbn [fst] in F.
  rewrite <- check_parens, F in C. assert (W : parens (deleteWhiteSpaces (s2l text)) = parens (s2l text)).
  { unfold deleteWhiteSpaces. generalize (s2l text). intros l. induction l as [|c l IH]; [done|].
    destruct (notIn (s2l " ") c && negb (is "010" c)) eqn:E.
    - rewrite filter_cons_True by done. unfold parens in *. destruct (is "(" c || is ")" c) eqn:A; [rewrite !(filter_cons_True (fun c => is "(" c || is ")" c = true)) by done; by rewrite IH|rewrite !(filter_cons_False (fun c => is "(" c || is ")" c = true)) by (by rewrite A); done].
    - rewrite filter_cons_False by (by rewrite E). rewrite IH. unfold parens. rewrite filter_cons_False; [done|]. intros A. apply orb_true_iff in A as [A|A]; apply is_eq in A; subst c; done. }
  rewrite W, check_parens in C. destruct (check_counts _ 0 ltac:(lia) C) as [H1 H2]. split; [|done]. intros p P. apply H1 in P. lia.
Qed.
Theorem evaluate_balanced {D} (o : ops D) text v : evaluate o text = Ok v \/ evaluateFast o text = Ok v -> balanced (s2l text).
Proof.
  unfold evaluate, evaluateFast. destruct (parse (s2l text)) as [n| | |] eqn:P; [intros _; by eapply parse_balanced|intros [H|H]; done..].
Qed.
