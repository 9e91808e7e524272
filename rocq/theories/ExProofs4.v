(** Expressions: the numbers of the text. *)
From Coq Require Import Ascii String ZifyBool ZifyNat.
From stdpp Require Import strings.
From Verif Require Import Base ExModel ExSpec ExProofs ExProofs2 ExProofs3.
Local Open Scope Z_scope.

Lemma findFirst_from p a b : findFirst p (a ++ b) (zlen a) = match firstOf p b with Some k => zlen a + k | None => npos end.
Proof.
  unfold findFirst. rewrite zlen_app'. pose proof (zlen_nonneg' b). destruct (zlen a + zlen b <=? zlen a) eqn:E.
  - destruct b; [done|]. rewrite zlen_cons' in *. pose proof (zlen_nonneg' b). lia.
  - replace (Z.to_nat (zlen a)) with (length a) by (unfold zlen; lia). by rewrite drop_app.
Qed.
Lemma charAt_at a c b : charAt (a ++ c :: b) (zlen a) = c.
Proof. unfold charAt. rewrite zlook_app_r by lia. rewrite Z.sub_diag. done. Qed.
Lemma charAt_before p c b : charAt ((p ++ [c]) ++ b) (zlen (p ++ [c]) - 1) = c.
Proof. rewrite <- app_assoc. rewrite zlen_app'. change (zlen [c]) with 1. replace (zlen p + 1 - 1) with (zlen p) by lia. apply charAt_at. Qed.

Definition nofig (c : ascii) : Prop := isIn figures c = false.
Definition run (lgth : Z) (text : list ascii) (pos id : Z) (vals : list dec) (out : list ascii * list dec) : Prop :=
  forall fuel, zlen text - pos < Z.of_nat fuel -> fillLoop fuel lgth text pos id vals = Ok out.
Lemma fillLoop_pos f lgth text pos pos' id vals : pos <> npos -> pos' <> npos -> findFirst (isIn figures) text pos = findFirst (isIn figures) text pos' ->
  fillLoop (S f) lgth text pos id vals = fillLoop (S f) lgth text pos' id vals.
Proof. intros H1 H2 E. cbn [fillLoop]. rewrite (proj2 (Z.eqb_neq _ _) H1), (proj2 (Z.eqb_neq _ _) H2), E. done. Qed.
Lemma run_skip lgth pre c post id vals out : zlen (pre ++ c :: post) < npos -> nofig c ->
  run lgth (pre ++ c :: post) (zlen (pre ++ [c])) id vals out -> run lgth (pre ++ c :: post) (zlen pre) id vals out.
Proof.
  intros L N H fuel F. rewrite zlen_app', zlen_cons' in L, F. pose proof (zlen_nonneg' pre). pose proof (zlen_nonneg' post). destruct fuel as [|fuel]; [lia|].
  rewrite (fillLoop_pos fuel lgth _ _ (zlen (pre ++ [c]))); [|lia|rewrite zlen_app'; change (zlen [c]) with 1; lia|].
  - apply H. rewrite !zlen_app', zlen_cons'. change (zlen [c]) with 1. lia.
  - rewrite findFirst_from. replace (pre ++ c :: post) with ((pre ++ [c]) ++ post) by (by rewrite <- app_assoc). rewrite findFirst_from. cbn [firstOf]. unfold nofig in N. rewrite N.
    rewrite zlen_app'. change (zlen [c]) with 1. destruct (firstOf (isIn figures) post); cbn; [lia|done].
Qed.
Lemma run_end lgth text id vals out : zlen text < npos -> run lgth text (zlen text) id vals out -> out = (text, vals).
Proof.
  intros L H. specialize (H 1%nat). rewrite Z.sub_diag in H. specialize (H ltac:(lia)). cbn [fillLoop] in H. rewrite (proj2 (Z.eqb_neq _ _)) in H by lia.
  replace (findFirst (isIn figures) text (zlen text)) with npos in H. - rewrite Z.eqb_refl in H. congruence.
  - unfold findFirst. rewrite (proj2 (Z.leb_le _ _)) by lia. done.
Qed.
Lemma firstOf_digits d : digits d -> firstOf (notIn figures) d = None.
Proof. intros H. apply firstOf_none. eapply Forall_impl; [exact H|]. intros x Hx. unfold notIn. by rewrite Hx. Qed.
Lemma firstOf_digits_at d c r : digits d -> nofig c -> firstOf (notIn figures) (d ++ c :: r) = Some (zlen d).
Proof. intros H N. apply firstOf_at; [|unfold notIn; by rewrite N]. eapply Forall_impl; [exact H|]. intros x Hx. unfold notIn. by rewrite Hx. Qed.
Lemma firstFig d r : digits d -> d <> [] -> firstOf (isIn figures) (d ++ r) = Some 0.
Proof. intros H N. destruct d as [|c d]; [done|]. apply Forall_cons in H as [H _]. cbn [app firstOf]. by rewrite H. Qed.

(** What follows an expression. *)
Definition closes (post : list ascii) : Prop := match post with [] => True | c :: _ => nofig c /\ is "." c = false /\ is "e" c = false /\ is "E" c = false end.
Definition headNofig (post : list ascii) : Prop := match post with [] => True | c :: _ => nofig c end.
Definition armed (pre : list ascii) : Prop := exists p c, pre = p ++ [c] /\ isIn beforeNumber c = false.
Definition before (pre : list ascii) : Prop := pre = [] \/ exists p c, pre = p ++ [c] /\ isIn beforeNumber c = true.
Lemma okc_armed c : okc c -> isIn beforeNumber c = false.
Proof. intros H. pose proof (all_chars (fun c => implb (okName c) (negb (isIn beforeNumber c))) ltac:(vm_compute; reflexivity) c) as A. cbv beta in A. rewrite H in A. by destruct (isIn beforeNumber c). Qed.
Lemma run_digits lgth pre d post id vals out : zlen (pre ++ d ++ post) < npos -> armed pre -> digits d -> d <> [] -> headNofig post ->
  run lgth (pre ++ d ++ post) (zlen (pre ++ d)) id vals out -> run lgth (pre ++ d ++ post) (zlen pre) id vals out.
Proof.
  intros L (p & c & E & A) D N C H fuel F. rewrite !zlen_app' in L, F. pose proof (zlen_nonneg' pre). pose proof (zlen_nonneg' post). 
  assert (0 < zlen d) by (destruct d; [done|]; rewrite zlen_cons'; pose proof (zlen_nonneg' d); lia).
  assert (0 < zlen pre) by (rewrite E, zlen_app'; change (zlen [c]) with 1; pose proof (zlen_nonneg' p); lia).
  destruct fuel as [|fuel]; [lia|]. cbn [fillLoop]. rewrite (proj2 (Z.eqb_neq _ _)) by lia. rewrite findFirst_from, firstFig by done. rewrite Z.add_0_r. rewrite (proj2 (Z.eqb_neq _ _)) by lia.
  replace (charAt (pre ++ d ++ post) (zlen pre - 1)) with c by (rewrite E; by rewrite charAt_before). unfold notIn at 1. rewrite A. rewrite (proj2 (Z.ltb_lt _ _)) by lia. cbn [andb negb].
  rewrite findFirst_from. destruct post as [|c' post].
  - rewrite app_nil_r in *. rewrite firstOf_digits by done. apply run_end in H; [|rewrite zlen_app'; lia]. subst out. destruct fuel as [|fuel]; [change (zlen (@nil ascii)) with 0 in *; lia|]. cbn [fillLoop]. by rewrite Z.eqb_refl.
  - rewrite firstOf_digits_at by done. rewrite <- zlen_app'. apply H. rewrite !zlen_app'. lia.
Qed.
Lemma digits_split l : exists d r, l = d ++ r /\ digits d /\ headNofig r.
Proof.
  induction l as [|c l IH]. { exists [], []. repeat constructor. } destruct (isIn figures c) eqn:E.
  - destruct IH as (d & r & -> & H1 & H2). exists (c :: d), r. split; [done|]. split; [by constructor|done].
  - exists [], (c :: l). split; [done|]. split; [constructor|done].
Qed.
Lemma run_name_len lgth k : forall n pre post id vals out, (length n <= k)%nat -> zlen (pre ++ n ++ post) < npos -> Forall okc n -> armed pre \/ headNofig n -> headNofig post ->
  run lgth (pre ++ n ++ post) (zlen (pre ++ n)) id vals out -> run lgth (pre ++ n ++ post) (zlen pre) id vals out.
Proof.
  induction k as [|k IH]; intros n pre post id vals out Lk L O A C H.
  { destruct n; [|cbn in Lk; lia]. by rewrite app_nil_r in H. }
  destruct n as [|c n]; [by rewrite app_nil_r in H|]. destruct (isIn figures c) eqn:E.
  - destruct A as [A|A]; [|cbn in A; unfold nofig in A; congruence]. destruct (digits_split (c :: n)) as (d & r & F & D & R).
    assert (N : d <> []). { intros ->. cbn in F. subst r. cbn in R. unfold nofig in R. congruence. }
    rewrite F in *. rewrite <- app_assoc in *. apply Forall_app in O as [O1 O2]. apply run_digits; try done; [destruct r; [done|exact R]|].
    replace (pre ++ d ++ r ++ post) with ((pre ++ d) ++ r ++ post) in * by (by rewrite <- app_assoc). apply IH; try done.
    + rewrite app_length in Lk. destruct d; [done|]. cbn in Lk. lia.
    + by right.
    + by rewrite <- (app_assoc pre d r).
  - apply Forall_cons in O as [O1 O2]. cbn [app] in *. apply run_skip; try done.
    replace (pre ++ c :: n ++ post) with ((pre ++ [c]) ++ n ++ post) in * by (by rewrite <- app_assoc). apply IH; try done.
    + cbn in Lk. lia.
    + left. exists pre, c. split; [done|]. by apply okc_armed.
    + by rewrite <- (app_assoc pre [c] n).
Qed.
Lemma run_name lgth n pre post id vals out : zlen (pre ++ n ++ post) < npos -> Forall okc n -> headNofig n -> headNofig post ->
  run lgth (pre ++ n ++ post) (zlen (pre ++ n)) id vals out -> run lgth (pre ++ n ++ post) (zlen pre) id vals out.
Proof. intros. eapply run_name_len; eauto. Qed.

(** *** A number *)
Lemma readDouble_lit l : litOk l -> readDouble (showLit l) = Some (litDec l, []).
Proof.
  intros (H1 & H2 & H3 & H4). unfold readDouble, showLit, litDec.
  assert (X : forall m f, readExponent m f (match l_exp l with Some (c, Some s, x) => c :: s :: x | Some (c, None, x) => c :: x | None => [] end) =
    Some (Dec (decimal m) (match l_exp l with Some (_, Some "-"%char, x) => - decimal x | Some (_, _, x) => decimal x | None => 0 end - f), [])).
  { intros m f. destruct (l_exp l) as [[[c s] x]|]; [|done]. destruct (H4 c s x eq_refl) as (Hc & Hs & Hx & Nx). unfold readExponent.
    destruct s as [a|].
    - assert (Ec : is "e" c || is "E" c = true) by (destruct Hc as [-> | ->]; done). rewrite Ec. destruct (Hs a eq_refl) as [-> | ->].
      + change (is "-" "+") with false. change (is "+" "+") with true. cbn iota. rewrite takeDigits_all by done. by rewrite bool_decide_eq_false_2.
      + change (is "-" "-") with true. cbn iota. rewrite takeDigits_all by done. by rewrite bool_decide_eq_false_2.
    - assert (Ec : is "e" c || is "E" c = true) by (destruct Hc as [-> | ->]; done). rewrite Ec. destruct x as [|d x]; [done|].
      apply Forall_cons in Hx as Hx'. destruct Hx' as [Hd _]. pose proof (all_chars (fun c => implb (isIn figures c) (negb (is "-" c) && negb (is "+" c))) ltac:(vm_compute; reflexivity) d) as A. cbv beta in A. rewrite Hd in A. cbn [implb] in A.
      apply andb_true_iff in A as [A1 A2]. rewrite negb_true_iff in A1, A2. rewrite A1, A2. rewrite takeDigits_all by done. by rewrite bool_decide_eq_false_2. }
  assert (Y : forall d, digits d -> takeDigits (d ++ match l_exp l with Some (c, Some s, x) => c :: s :: x | Some (c, None, x) => c :: x | None => [] end) =
     (d, match l_exp l with Some (c, Some s, x) => c :: s :: x | Some (c, None, x) => c :: x | None => [] end)).
  { intros d Hd. destruct (l_exp l) as [[[c s] x]|]; [|rewrite app_nil_r; by apply takeDigits_all]. destruct (H4 c s x eq_refl) as (Hc & _).
    assert (isIn figures c = false) by (destruct Hc as [-> | ->]; done). destruct s; by apply takeDigits_app. }
  destruct (l_frac l) as [f|] eqn:E.
  - rewrite <- app_comm_cons. rewrite takeDigits_app by done. change (is "." ".") with true. cbn iota. rewrite Y by (by apply H3).
    rewrite bool_decide_eq_false_2 by (intros Q; by apply app_eq_nil in Q as [Q _]). apply X.
  - cbn [app]. rewrite Y by done. assert (Z : forall r, (match l_exp l with Some (c, Some s, x) => c :: s :: x | Some (c, None, x) => c :: x | None => [] end) = r ->
      match r with c :: r' => if is "." c then takeDigits r' else ([], r) | [] => ([], r) end = ([], r)).
    { intros r Hr. destruct r as [|c r]; [done|]. destruct (l_exp l) as [[[c' s] x]|]; [|done]. destruct (H4 c' s x eq_refl) as (Hc & _). assert (c = c') by (destruct s; congruence). subst c'.
      replace (is "." c) with false by (destruct Hc as [-> | ->]; done). done. }
    rewrite (Z _ eq_refl). rewrite app_nil_r. rewrite bool_decide_eq_false_2 by done. cbn [default]. rewrite app_nil_r. apply X.
Qed.
Lemma textOf_one id : 0 <= id < 10 -> textOf 20 id = [digitChar id].
Proof. intros H. cbn [textOf]. rewrite (proj2 (Z.ltb_lt _ _)) by lia. done. Qed.
Lemma replace_lit l pre post id en : litOk l -> 0 <= id < 10 -> zlen (pre ++ showLit l ++ post) < npos -> en = zlen (pre ++ showLit l) \/ (en = npos /\ post = []) ->
  replaceAndTraduce (pre ++ showLit l ++ post) id (zlen pre) en = Ok (pre ++ [digitChar id] ++ post, 1 - zlen (showLit l), litDec l).
Proof.
  intros W I L E. unfold replaceAndTraduce. assert (X : substr (pre ++ showLit l ++ post) (zlen pre) (if en =? npos then en else en - zlen pre) = Ok (showLit l)).
  { rewrite !zlen_app' in *. pose proof (zlen_nonneg' post). destruct E as [-> |[-> ->]].
    - rewrite (proj2 (Z.eqb_neq _ _)) by lia. replace (zlen pre + zlen (showLit l) - zlen pre) with (zlen (showLit l)) by lia. apply substr_mid.
    - rewrite Z.eqb_refl. rewrite app_nil_r. apply substr_from. rewrite zlen_app'. lia. }
  rewrite X. cbn [bind]. rewrite readDouble_lit by done. rewrite textOf_one by done. f_equal. f_equal. f_equal.
  replace (Z.to_nat (zlen pre)) with (length pre) by (unfold zlen; lia). rewrite take_app. replace (Z.to_nat (zlen pre + zlen (showLit l))) with (length (pre ++ showLit l)) by (rewrite app_length; unfold zlen; lia).
  rewrite (app_assoc pre (showLit l) post). by rewrite drop_app.
Qed.
Lemma run_lit lgth l pre post id vals out : litOk l -> 0 <= id < 10 -> before pre -> closes post -> zlen (pre ++ showLit l ++ post) <= lgth -> lgth < npos ->
  run lgth (pre ++ [digitChar id] ++ post) (zlen (pre ++ [digitChar id])) (id + 1) (vals ++ [litDec l]) out -> run lgth (pre ++ showLit l ++ post) (zlen pre) id vals out.
Proof.
  intros W I B C L Lg H fuel F. pose proof W as (W1 & W2 & W3 & W4).
  assert (R : forall en, en = zlen (pre ++ showLit l) \/ (en = npos /\ post = []) -> replaceAndTraduce (pre ++ showLit l ++ post) id (zlen pre) en = Ok (pre ++ [digitChar id] ++ post, 1 - zlen (showLit l), litDec l)).
  { intros en. apply replace_lit; [done|done|lia]. }
  assert (Nl : 1 <= zlen (showLit l)). { unfold showLit. rewrite zlen_app'. destruct (l_int l) as [|c0 i]; [done|]. rewrite zlen_cons'. pose proof (zlen_nonneg' i). pose proof (zlen_nonneg' (match l_frac l with Some f => "."%char :: f | None => [] end ++ match l_exp l with Some (c, Some s, x) => c :: s :: x | Some (c, None, x) => c :: x | None => [] end)). lia. }
  pose proof (zlen_nonneg' pre) as Np. pose proof (zlen_nonneg' post) as Npost.
  rewrite !zlen_app' in F, L.
  destruct fuel as [|fuel]; [lia|]. cbn [fillLoop]. rewrite (proj2 (Z.eqb_neq _ _)) by lia.
  (* the first figure *)
  assert (X : forall t, findFirst (isIn figures) (pre ++ l_int l ++ t) (zlen pre) = zlen pre) by (intros t; rewrite findFirst_from, firstFig by done; lia).
  assert (X' : findFirst (isIn figures) (pre ++ showLit l ++ post) (zlen pre) = zlen pre) by (unfold showLit; rewrite <- app_assoc; apply X).
  rewrite X'. clear X X'. rewrite (proj2 (Z.eqb_neq _ _)) by lia.
  assert (B1 : (0 <? zlen pre) && notIn beforeNumber (charAt (pre ++ showLit l ++ post) (zlen pre - 1)) = false).
  { destruct B as [-> |(p & c & -> & Hc)]; [done|]. rewrite charAt_before. unfold notIn. rewrite Hc. by rewrite andb_false_r. }
  assert (B2 : (0 <? zlen pre) && is ")" (charAt (pre ++ showLit l ++ post) (zlen pre - 1)) = false).
  { destruct B as [-> |(p & c & -> & Hc)]; [done|]. rewrite charAt_before. rewrite andb_false_iff. right. unfold is. destruct (Ascii.eqb_spec c ")"%char) as [->|]; [by vm_compute in Hc|done]. }
  rewrite B1, B2. cbn [ifthrow]. clear B1 B2.
  set (text := pre ++ showLit l ++ post) in *.
  (* the two ends *)
  assert (LAST : post = [] -> (let* r := replaceAndTraduce text id (zlen pre) npos in Ok (r.1.1, vals ++ [r.2])) = Ok out).
  { intros ->. rewrite R by (right; done). cbn [bind fst snd]. rewrite app_nil_r in *. apply run_end in H; [by subst out|]. rewrite zlen_app'. change (zlen [digitChar id]) with 1. cbn in *. unfold zlen in *. cbn in *. lia. }
  assert (GO : forall en, en = zlen (pre ++ showLit l) \/ (en = npos /\ post = [] /\ 2 <= zlen (showLit l)) -> (let* r := replaceAndTraduce text id (zlen pre) en in fillLoop fuel lgth r.1.1 ((en + r.1.2) mod (npos + 1)) (id + 1) (vals ++ [r.2])) = Ok out).
  { intros en [E|(E & -> & L2)].
    - rewrite R by (by left). cbn [bind fst snd]. subst en. rewrite zlen_app'. replace (zlen pre + zlen (showLit l) + (1 - zlen (showLit l))) with (zlen pre + 1) by lia. rewrite Z.mod_small by lia.
      replace (zlen pre + 1) with (zlen (pre ++ [digitChar id])) by (by rewrite zlen_app'). apply H. rewrite !zlen_app'. change (zlen [digitChar id]) with 1. lia.
    - rewrite R by (by right). cbn [bind fst snd]. subst en. change (zlen (@nil ascii)) with 0 in *. rewrite Z.mod_small by lia. destruct fuel as [|fuel]; [lia|]. cbn [fillLoop]. rewrite (proj2 (Z.eqb_neq _ _)) by lia.
      replace (findFirst _ _ _) with npos.
      + rewrite Z.eqb_refl. rewrite app_nil_r in *. apply run_end in H; [by subst out|]. rewrite zlen_app'. change (zlen [digitChar id]) with 1. lia.
      + unfold findFirst. rewrite !zlen_app'. change (zlen [digitChar id]) with 1. change (zlen (@nil ascii)) with 0. by rewrite (proj2 (Z.leb_le _ _)) by lia. }
  (* after the mantissa [m] : what is at its end *)
  assert (K : forall a d, text = a ++ d ++ match l_exp l with Some (c, Some s, x) => c :: s :: x | Some (c, None, x) => c :: x | None => [] end ++ post -> digits d -> zlen pre + 1 <= zlen a + zlen d ->
    (l_exp l = None -> zlen (a ++ d) = zlen (pre ++ showLit l)) ->
    (if zlen a <? lgth then
       let pos4 := findFirst (notIn figures) text (zlen a) in
       if pos4 =? npos then let* r := replaceAndTraduce text id (zlen pre) npos in Ok (r.1.1, vals ++ [r.2]) else
       if negb (is "e" (charAt text pos4) || is "E" (charAt text pos4)) then let* r := replaceAndTraduce text id (zlen pre) pos4 in fillLoop fuel lgth r.1.1 ((pos4 + r.1.2) mod (npos + 1)) (id + 1) (vals ++ [r.2]) else
       if pos4 + 1 <? lgth then
         let pos5 := if isIn signs (charAt text (pos4 + 1)) then pos4 + 1 + 1 else pos4 + 1 in
         throw_if lgth <=? pos5 >>>
         throw_if pos5 =? findFirst (notIn figures) text pos5 >>>
         (let* r := replaceAndTraduce text id (zlen pre) (findFirst (notIn figures) text pos5) in fillLoop fuel lgth r.1.1 ((findFirst (notIn figures) text pos5 + r.1.2) mod (npos + 1)) (id + 1) (vals ++ [r.2]))
       else Throw
     else let* r := replaceAndTraduce text id (zlen pre) npos in Ok (r.1.1, vals ++ [r.2])) = Ok out).
  { intros a d E D La Ee. assert (Lt : zlen text = zlen pre + (zlen (showLit l) + zlen post)) by (unfold text; by rewrite !zlen_app').
    pose proof (zlen_nonneg' d) as Nd. pose proof (zlen_nonneg' a) as Na.
    destruct (l_exp l) as [[[c s] x]|] eqn:X.
    - destruct (W4 c s x eq_refl) as (Hc & Hs & Hx & Nx). assert (Fc : nofig c) by (destruct Hc as [-> | ->]; done).
      assert (Lx : 1 <= zlen x) by (destruct x; [done|]; rewrite zlen_cons'; pose proof (zlen_nonneg' x); lia).
      assert (E' : exists sg, text = (a ++ d) ++ c :: sg ++ x ++ post /\ (sg = [] \/ exists y, sg = [y] /\ isIn signs y = true)).
      { destruct s as [y|]; [exists [y]|exists []]; rewrite E; (split; [by rewrite <- app_assoc|]); [right|by left]. exists y. split; [done|]. destruct (Hs y eq_refl) as [-> | ->]; done. }
      destruct E' as (sg & E' & Sg). assert (Lsg : 0 <= zlen sg <= 1) by (destruct Sg as [->|(y & -> & _)]; unfold zlen; cbn; lia).
      assert (Lt' : zlen text = zlen a + zlen d + (zlen sg + (zlen x + zlen post) + 1)) by (rewrite E'; rewrite !zlen_app', zlen_cons', !zlen_app'; lia).
      rewrite (proj2 (Z.ltb_lt _ _)) by lia. cbv zeta.
      assert (P4 : findFirst (notIn figures) text (zlen a) = zlen (a ++ d)).
      { rewrite E'. rewrite <- (app_assoc a d). rewrite findFirst_from, firstOf_digits_at by done. by rewrite zlen_app'. }
      rewrite P4. assert (C4 : charAt text (zlen (a ++ d)) = c) by (rewrite E'; apply charAt_at). rewrite C4.
      replace (is "e" c || is "E" c) with true by (destruct Hc as [-> | ->]; done). cbn [negb].
      rewrite zlen_app' in *. rewrite (proj2 (Z.eqb_neq _ _)) by lia. rewrite (proj2 (Z.ltb_lt _ _)) by lia.
      assert (E'' : text = ((a ++ d) ++ [c]) ++ sg ++ x ++ post) by (rewrite E'; by rewrite <- !app_assoc).
      assert (L5 : zlen ((a ++ d) ++ [c]) = zlen a + zlen d + 1) by (by rewrite !zlen_app').
      assert (P5 : (if isIn signs (charAt text (zlen a + zlen d + 1)) then zlen a + zlen d + 1 + 1 else zlen a + zlen d + 1) = zlen (((a ++ d) ++ [c]) ++ sg)).
      { rewrite (zlen_app' _ sg), L5. rewrite <- L5 at 1. destruct Sg as [->|(y & -> & Hy)].
        - cbn [app] in E''. destruct x as [|x0 x]; [done|]. rewrite E''. cbn [app]. rewrite charAt_at. apply Forall_cons in Hx as [Hx0 _]. apply fig_ok, ok_facts in Hx0. replace (isIn signs x0) with false by (symmetry; tauto). change (zlen (@nil ascii)) with 0. by rewrite Z.add_0_r.
        - rewrite E''. cbn [app]. rewrite charAt_at, Hy. done. }
      rewrite P5. assert (L6 : zlen (((a ++ d) ++ [c]) ++ sg) = zlen a + zlen d + 1 + zlen sg) by (rewrite zlen_app', L5; done).
      rewrite (proj2 (Z.leb_gt _ _)) by lia. cbn [ifthrow].
      assert (E3 : text = (((a ++ d) ++ [c]) ++ sg) ++ x ++ post) by (rewrite E''; by rewrite <- !app_assoc).
      assert (P6 : findFirst (notIn figures) text (zlen (((a ++ d) ++ [c]) ++ sg)) = match post with [] => npos | _ => zlen (pre ++ showLit l) end).
      { rewrite E3, findFirst_from. destruct post as [|c' post]. - rewrite app_nil_r. by rewrite firstOf_digits.
        - rewrite firstOf_digits_at; [|done|]. + rewrite L6, (zlen_app' pre). lia. + apply C. }
      rewrite P6. assert (P7 : (zlen (((a ++ d) ++ [c]) ++ sg) =? match post with [] => npos | _ => zlen (pre ++ showLit l) end) = false).
      { rewrite L6. destruct post; [lia|]. rewrite zlen_app'. lia. }
      rewrite P7. cbn [ifthrow]. apply GO. destruct post; [|left; by rewrite zlen_app']. right. split; [done|]. split; [done|]. change (zlen (@nil ascii)) with 0 in *. lia.
    - cbn [app] in E. specialize (Ee eq_refl). rewrite zlen_app' in Ee. rewrite zlen_app' in Ee. assert (P4 : findFirst (notIn figures) text (zlen a) = match post with [] => npos | _ => zlen (pre ++ showLit l) end).
      { rewrite E, findFirst_from. destruct post as [|c' post]. - rewrite app_nil_r. by rewrite firstOf_digits.
        - rewrite firstOf_digits_at; [|done|]. + rewrite zlen_app'. lia. + apply C. }
      cbv zeta. rewrite P4. destruct (zlen a <? lgth) eqn:G.
      + destruct post as [|c' post]; [rewrite Z.eqb_refl; by apply LAST|]. rewrite zlen_app'. rewrite (proj2 (Z.eqb_neq _ _)) by (rewrite zlen_cons' in *; lia).
        replace (charAt text (zlen pre + zlen (showLit l))) with c'. 2:{ unfold text. rewrite app_assoc. rewrite <- zlen_app'. by rewrite charAt_at. }
        destruct C as (C1 & C2 & C3 & C4). rewrite C3, C4. cbn [orb negb]. rewrite <- zlen_app'. apply GO. by left.
      + apply LAST. destruct post as [|c' post]; [done|]. exfalso. rewrite zlen_cons' in *. pose proof (zlen_nonneg' post). lia. }
  (* after the integer part *)
  assert (Li : 1 <= zlen (l_int l)) by (destruct (l_int l) as [|c i]; [done|]; rewrite zlen_cons'; pose proof (zlen_nonneg' i); lia).
  destruct (l_frac l) as [f|] eqn:Fr.
  - assert (E : text = pre ++ l_int l ++ "."%char :: f ++ match l_exp l with Some (c, Some s, x) => c :: s :: x | Some (c, None, x) => c :: x | None => [] end ++ post).
    { unfold text, showLit. rewrite Fr. rewrite <- !app_assoc. cbn [app]. done. }
    assert (P3 : findFirst (notIn figures) text (zlen pre) = zlen (pre ++ l_int l)). { rewrite E, findFirst_from, firstOf_digits_at by done. by rewrite zlen_app'. }
    rewrite P3. assert (C3 : charAt text (zlen (pre ++ l_int l)) = "."%char) by (rewrite E, app_assoc; apply charAt_at). rewrite C3. change (is "." ".") with true. cbn iota.
    assert (Lt : zlen text = zlen pre + (zlen (showLit l) + zlen post)) by (unfold text; by rewrite !zlen_app').
    assert (zlen (pre ++ l_int l) < zlen text) by (rewrite E, app_assoc; rewrite (zlen_app' (pre ++ l_int l)), zlen_cons'; pose proof (zlen_nonneg' (f ++ match l_exp l with Some (c, Some s, x) => c :: s :: x | Some (c, None, x) => c :: x | None => [] end ++ post)); lia).
    rewrite (proj2 (Z.eqb_neq _ _)) by lia.
    replace (zlen (pre ++ l_int l) + 1) with (zlen ((pre ++ l_int l) ++ ["."%char])) by (by rewrite zlen_app').
    apply (K _ f); [|by apply W3| |].
    + rewrite E. by rewrite <- !app_assoc.
    + rewrite !zlen_app'. pose proof (zlen_nonneg' f). change (zlen ["."%char]) with 1. lia.
    + intros Ex. unfold showLit. rewrite Fr, Ex. rewrite !app_nil_r. rewrite <- !app_assoc. done.
  - assert (E : text = pre ++ l_int l ++ match l_exp l with Some (c, Some s, x) => c :: s :: x | Some (c, None, x) => c :: x | None => [] end ++ post).
    { unfold text, showLit. rewrite Fr. by rewrite <- !app_assoc. }
    assert (Lt : zlen text = zlen pre + (zlen (showLit l) + zlen post)) by (unfold text; by rewrite !zlen_app').
    destruct (match l_exp l with Some (c, Some s, x) => c :: s :: x | Some (c, None, x) => c :: x | None => [] end ++ post) as [|c r] eqn:T.
    + apply app_eq_nil in T as [_ T]. rewrite app_nil_r in E. assert (P3 : findFirst (notIn figures) text (zlen pre) = npos) by (rewrite E, findFirst_from; by rewrite firstOf_digits).
      rewrite P3, Z.eqb_refl. by apply LAST.
    + assert (Hc : nofig c /\ is "." c = false). { destruct (l_exp l) as [[[c' s] x]|]. - destruct (W4 c' s x eq_refl) as (Hc & _). assert (c = c') by (destruct s; cbn in T; congruence). subst c'. destruct Hc as [-> | ->]; done.
        - cbn [app] in T. rewrite T in C. cbn in C. tauto. }
      destruct Hc as [Hc Hd]. assert (P3 : findFirst (notIn figures) text (zlen pre) = zlen (pre ++ l_int l)) by (rewrite E, findFirst_from, firstOf_digits_at by done; by rewrite zlen_app').
      rewrite P3. assert (zlen (pre ++ l_int l) < zlen text) by (rewrite E, app_assoc; rewrite (zlen_app' (pre ++ l_int l)), zlen_cons'; pose proof (zlen_nonneg' r); lia).
      rewrite (proj2 (Z.eqb_neq _ _)) by lia.
      assert (C3 : charAt text (zlen (pre ++ l_int l)) = c) by (rewrite E, app_assoc; apply charAt_at). rewrite C3, Hd.
      apply (K _ []); [|constructor| |].
      * rewrite E. cbn [app]. by rewrite app_assoc.
      * rewrite !zlen_app'. change (zlen (@nil ascii)) with 0. lia.
      * intros Ex. unfold showLit. rewrite Fr, Ex. by rewrite !app_nil_r.
Qed.
