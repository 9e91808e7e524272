(** Expressions: the value. *)
From Coq Require Import Ascii String ZifyBool ZifyNat.
From stdpp Require Import strings.
From Verif Require Import Base ArrLib ExModel ExSpec ExProofs ExProofs2 ExProofs3 ExProofs4.
Local Open Scope Z_scope.

(** The expression whose numbers are replaced by their places. *)
Fixpoint num (id : Z) (e : expr) : expr :=
  match e with
  | ENum s l => ENum s (Lit [digitChar id] None None)
  | EVar s n => EVar s n
  | EPar s e => EPar s (num id e)
  | ECall f a => ECall f (num id a)
  | ECall2 f a b => ECall2 f (num id a) (num (id + zlen (literals a)) b)
  | EIf a b c => EIf (num id a) (num (id + zlen (literals a)) b) (num (id + zlen (literals a) + zlen (literals b)) c)
  | EBin op l r => EBin op (num id l) (num (id + zlen (literals l)) r) end.
Lemma lits_nonneg e : 0 <= zlen (literals e).
Proof. unfold zlen. lia. Qed.
Lemma digit_fig id : 0 <= id < 10 -> isIn figures (digitChar id) = true /\ digitOf (digitChar id) = id.
Proof.
  intros H. assert (C : id = 0 \/ id = 1 \/ id = 2 \/ id = 3 \/ id = 4 \/ id = 5 \/ id = 6 \/ id = 7 \/ id = 8 \/ id = 9) by lia.
  destruct C as [->|[->|[->|[->|[->|[->|[->|[->|[->| ->]]]]]]]]]; done.
Qed.
Lemma num_dec id : 0 <= id < 10 -> litDec (Lit [digitChar id] None None) = Dec id 0.
Proof. intros H. destruct (digit_fig id H) as [_ D]. unfold litDec. cbn [l_int l_frac l_exp default app]. unfold decimal. cbn [foldl]. rewrite D. done. Qed.
Lemma num_litOk id : 0 <= id < 10 -> litOk (Lit [digitChar id] None None).
Proof. intros H. destruct (digit_fig id H). split; [by constructor|]. split; [done|]. split; [done|]. done. Qed.
Lemma num_plain id e : plain (num id e).
Proof. revert id. induction e; intros id; cbn; auto. Qed.
Lemma num_level id e : level (num id e) = level e.
Proof. by destruct e. Qed.
Lemma num_nocomma id e : nocomma e -> nocomma (num id e).
Proof. revert id. induction e; intros id; cbn; intuition. Qed.
Lemma num_nocmp id e : nocmp e -> nocmp (num id e).
Proof. revert id. induction e; intros id; cbn; intuition. Qed.
Lemma num_wf e : forall id, wf e -> 0 <= id -> id + zlen (literals e) <= 10 -> wf (num id e).
Proof.
  induction e as [sg l|sg n|sg e IH|f a IH|f a IHa b IHb|a IHa b IHb c IHc|op l IHl r IHr]; intros id W I L; cbn [wf num literals] in *.
  - apply num_litOk. unfold zlen in L. cbn in L. lia.
  - done.
  - split; [apply IH; tauto|apply num_nocomma; tauto].
  - repeat split; try tauto; [apply IH|apply num_nocomma]; tauto.
  - rewrite zlen_app' in L. pose proof (lits_nonneg a). pose proof (lits_nonneg b). repeat split; try tauto; first [apply num_nocomma; tauto|apply IHa; [tauto|lia|lia]|apply IHb; [tauto|lia|lia]].
  - rewrite !zlen_app' in L. pose proof (lits_nonneg a). pose proof (lits_nonneg b). pose proof (lits_nonneg c). repeat split; try tauto; first [apply num_nocomma; tauto|apply IHa; [tauto|lia|lia]|apply IHb; [tauto|lia|lia]|apply IHc; [tauto|lia|lia]].
  - rewrite zlen_app' in L. pose proof (lits_nonneg l). pose proof (lits_nonneg r). rewrite !num_level. destruct W as (W1 & W2 & W3 & W4 & W5 & W6 & W7).
    split; [apply IHl; [done|lia|lia]|]. split; [apply IHr; [done|lia|lia]|]. split; [done|]. split; [done|]. split; [done|]. split; [by apply num_nocmp|].
    destruct W7 as [W7|W7]; [left; by apply num_nocmp|by right].
Qed.
Lemma num_len e : forall id, wf e -> zlen (show (num id e)) <= zlen (show e).
Proof.
  induction e as [sg l|sg n|sg e IH|f a IH|f a IHa b IHb|a IHa b IHb c IHc|op l IHl r IHr]; intros id W; cbn [wf num show] in *; repeat first [rewrite zlen_app'|rewrite zlen_cons'].
  - destruct W as (_ & W & _). unfold showLit. cbn [l_int l_frac l_exp]. rewrite !app_nil_r. repeat first [rewrite zlen_app'|rewrite zlen_cons']. change (zlen (@nil ascii)) with 0.
    pose proof (zlen_nonneg' (match l_frac l with Some f => "."%char :: f | None => [] end)). pose proof (zlen_nonneg' (match l_exp l with Some (c, Some s, x) => c :: s :: x | Some (c, None, x) => c :: x | None => [] end)).
    destruct (l_int l) as [|c0 i]; [done|]. rewrite zlen_cons'. pose proof (zlen_nonneg' i). lia.
  - lia.
  - assert (Q := IH id ltac:(tauto)). lia.
  - assert (Q := IH id ltac:(tauto)). lia.
  - assert (Q := IHa id ltac:(tauto)). assert (Q' := IHb (id + zlen (literals a)) ltac:(tauto)). lia.
  - assert (Q := IHa id ltac:(tauto)). assert (Q' := IHb (id + zlen (literals a)) ltac:(tauto)). assert (Q'' := IHc (id + zlen (literals a) + zlen (literals b)) ltac:(tauto)). lia.
  - assert (Q := IHl id ltac:(tauto)). assert (Q' := IHr (id + zlen (literals l)) ltac:(tauto)). lia.
Qed.

Lemma closes_head post : closes post -> headNofig post.
Proof. destruct post; [done|]. intros H. apply H. Qed.
Lemma before_snoc p c : isIn beforeNumber c = true -> before (p ++ [c]).
Proof. intros H. right. exists p, c. done. Qed.
Lemma op_before op : lvl op < 4 -> isIn beforeNumber op = true /\ nofig op /\ is "." op = false /\ is "e" op = false /\ is "E" op = false.
Proof. intros H. opc H; done. Qed.
Lemma fun_head f : (f ∈ unaryNames /\ f <> s2l "-") \/ f = s2l "max" \/ f = s2l "min" \/ f = s2l "if" -> headNofig f.
Proof.
  intros [[H N]|[-> |[-> | ->]]]; [|done..]. unfold unaryNames in H. cbn [fmap list_fmap] in H. rewrite !elem_of_cons in H.
  repeat (destruct H as [->|H]; [by vm_compute|]). by apply elem_of_nil in H.
Qed.
Lemma run_eq lgth t p i v o t' p' i' v' : run lgth t p i v o -> t = t' -> p = p' -> i = i' -> v = v' -> run lgth t' p' i' v' o.
Proof. by intros H -> -> -> ->. Qed.
Ltac na := repeat (progress (rewrite <- ?app_assoc; cbn [app])); reflexivity.
Ltac zl := subst; repeat first [rewrite zlen_app' in *|rewrite zlen_cons' in *|rewrite zlen_app'|rewrite zlen_cons']; lia.
Lemma run_skip_eq lgth pre c t text pos id vals out : zlen text < npos -> nofig c -> text = pre ++ c :: t -> pos = zlen pre -> run lgth text (zlen (pre ++ [c])) id vals out -> run lgth text pos id vals out.
Proof. intros L N -> ->. by apply run_skip. Qed.
Lemma run_name_eq lgth n pre t text pos id vals out : zlen text < npos -> Forall okc n -> headNofig n -> headNofig t -> text = pre ++ n ++ t -> pos = zlen pre ->
  run lgth text (zlen (pre ++ n)) id vals out -> run lgth text pos id vals out.
Proof. intros L O N T -> ->. by apply run_name. Qed.
Lemma run_sign_eq lgth s pre t text pos id vals out : zlen text < npos -> before pre -> text = pre ++ showSign s ++ t -> pos = zlen pre ->
  (before (pre ++ showSign s) -> run lgth text (zlen (pre ++ showSign s)) id vals out) -> run lgth text pos id vals out.
Proof.
  intros L B -> -> H. destruct s; cbn [showSign] in *.
  - rewrite app_nil_r in H. by apply H.
  - apply run_skip; [done|done|]. apply H. by apply before_snoc.
  - apply run_skip; [done|done|]. apply H. by apply before_snoc.
Qed.
Lemma run_expr lgth e : lgth < npos -> forall pre post text pos id vals out, wf e -> 0 <= id -> id + zlen (literals e) <= 10 -> before pre -> closes post ->
  zlen text <= lgth -> text = pre ++ show e ++ post -> pos = zlen pre ->
  (forall text', text' = pre ++ show (num id e) ++ post -> zlen text' <= zlen text -> run lgth text' (zlen (pre ++ show (num id e))) (id + zlen (literals e)) (vals ++ literals e) out) ->
  run lgth text pos id vals out.
Proof.
  intros Lg.
  induction e as [sg l|sg n|sg e IH|f a IH|f a IHa b IHb|a IHa b IHb c IHc|op l IHl r IHr]; intros pre post text pos id vals out W I L B C Z ET EP H;
    match goal with |- context [run _ _ _ _ _ _] => idtac end; match type of W with wf ?x => pose proof (num_len x id W) as NL end; cbn [wf show num literals] in *.
  - eapply (run_sign_eq lgth sg pre (showLit l ++ post)); [lia|done|subst; na|done|]. intros B'. change (zlen [litDec l]) with 1 in *.
    rewrite ET. replace (pre ++ (showSign sg ++ showLit l) ++ post) with ((pre ++ showSign sg) ++ showLit l ++ post) by na.
    apply run_lit; try done; [lia| |].
    + replace ((pre ++ showSign sg) ++ showLit l ++ post) with text by (subst; na). done.
    + eapply run_eq; [apply H; [reflexivity|zl]|..]; try done; rewrite plain_lit by done; cbn [l_int]; na.
  - destruct W as (W & c & t & E & Hc & _). eapply (run_sign_eq lgth sg pre (n ++ post)); [lia|done|subst; na|done|]. intros B'.
    eapply (run_name_eq lgth n (pre ++ showSign sg) post); [lia|done|by rewrite E|by apply closes_head|subst; na|done|].
    change (zlen (@nil dec)) with 0 in H. rewrite Z.add_0_r, app_nil_r in H. eapply run_eq; [apply H; [exact ET|lia]|..]; try done. na.
  - eapply (run_sign_eq lgth sg pre ("("%char :: show e ++ [")"%char] ++ post)); [lia|done|subst; na|done|]. intros B'.
    eapply (run_skip_eq lgth (pre ++ showSign sg) "("%char (show e ++ [")"%char] ++ post)); [lia|done|subst; na|done|].
    eapply (IH ((pre ++ showSign sg) ++ ["("%char]) (")"%char :: post)); try done; [tauto|by apply before_snoc|subst; na|]. intros t1 E1 L1.
    eapply (run_skip_eq lgth (((pre ++ showSign sg) ++ ["("%char]) ++ show (num id e)) ")"%char post); [lia|done|subst; na|done|].
    eapply run_eq; [apply H; [reflexivity|zl]|..]; try done; subst; na.
  - destruct W as (W1 & W2 & W3 & W4). eapply (run_name_eq lgth f pre ("("%char :: show a ++ [")"%char] ++ post)); [lia|by apply unary_ok|apply fun_head; tauto|done|subst; na|done|].
    eapply (run_skip_eq lgth (pre ++ f) "("%char (show a ++ [")"%char] ++ post)); [lia|done|subst; na|done|].
    eapply (IH ((pre ++ f) ++ ["("%char]) (")"%char :: post)); try done; [by apply before_snoc|subst; na|]. intros t1 E1 L1.
    eapply (run_skip_eq lgth (((pre ++ f) ++ ["("%char]) ++ show (num id a)) ")"%char post); [lia|done|subst; na|done|].
    eapply run_eq; [apply H; [reflexivity|zl]|..]; try done; subst; na.
  - destruct W as (W1 & Wa & Na & Wb & Nb). rewrite zlen_app' in L, H. pose proof (lits_nonneg a). pose proof (lits_nonneg b).
    eapply (run_name_eq lgth f pre ("("%char :: show a ++ ","%char :: show b ++ [")"%char] ++ post)); [lia|by apply binary_ok|apply fun_head; tauto|done|subst; na|done|].
    eapply (run_skip_eq lgth (pre ++ f) "("%char (show a ++ ","%char :: show b ++ [")"%char] ++ post)); [lia|done|subst; na|done|].
    eapply (IHa ((pre ++ f) ++ ["("%char]) (","%char :: show b ++ [")"%char] ++ post)); try done; [lia|by apply before_snoc|subst; na|]. intros t1 E1 L1.
    eapply (run_skip_eq lgth (((pre ++ f) ++ ["("%char]) ++ show (num id a)) ","%char (show b ++ [")"%char] ++ post)); [lia|done|subst; na|done|].
    eapply (IHb ((((pre ++ f) ++ ["("%char]) ++ show (num id a)) ++ [","%char]) (")"%char :: post)); try done; [lia|lia|by apply before_snoc|lia|subst; na|]. intros t2 E2 L2.
    eapply (run_skip_eq lgth (((((pre ++ f) ++ ["("%char]) ++ show (num id a)) ++ [","%char]) ++ show (num (id + zlen (literals a)) b)) ")"%char post); [lia|done|subst; na|done|].
    eapply run_eq; [apply H; [reflexivity|zl]|..]; try done; try lia; subst; na.
  - destruct W as (Wa & Na & Wb & Nb & Wc & Nc). rewrite (zlen_app' (literals a)), (zlen_app' (literals b)) in L, H. pose proof (lits_nonneg a). pose proof (lits_nonneg b). pose proof (lits_nonneg c).
    set (f := s2l "if") in *.
    eapply (run_name_eq lgth f pre ("("%char :: show a ++ ","%char :: show b ++ ","%char :: show c ++ [")"%char] ++ post)); [lia|apply if_ok|apply fun_head; tauto|done|subst; na|done|].
    eapply (run_skip_eq lgth (pre ++ f) "("%char (show a ++ ","%char :: show b ++ ","%char :: show c ++ [")"%char] ++ post)); [lia|done|subst; na|done|].
    eapply (IHa ((pre ++ f) ++ ["("%char]) (","%char :: show b ++ ","%char :: show c ++ [")"%char] ++ post)); try done; [lia|by apply before_snoc|subst; na|]. intros t1 E1 L1.
    eapply (run_skip_eq lgth (((pre ++ f) ++ ["("%char]) ++ show (num id a)) ","%char (show b ++ ","%char :: show c ++ [")"%char] ++ post)); [lia|done|subst; na|done|].
    eapply (IHb ((((pre ++ f) ++ ["("%char]) ++ show (num id a)) ++ [","%char]) (","%char :: show c ++ [")"%char] ++ post)); try done; [lia|lia|by apply before_snoc|lia|subst; na|]. intros t2 E2 L2.
    set (pre2 := ((((pre ++ f) ++ ["("%char]) ++ show (num id a)) ++ [","%char]) ++ show (num (id + zlen (literals a)) b)) in *.
    eapply (run_skip_eq lgth pre2 ","%char (show c ++ [")"%char] ++ post)); [lia|done|subst t2; unfold pre2; na|done|].
    eapply (IHc (pre2 ++ [","%char]) (")"%char :: post)); try done; [lia|lia|by apply before_snoc|lia|subst t2; unfold pre2; na|]. intros t3 E3 L3.
    eapply (run_skip_eq lgth ((pre2 ++ [","%char]) ++ show (num (id + zlen (literals a) + zlen (literals b)) c)) ")"%char post); [lia|done|subst t3; na|done|].
    eapply run_eq; [apply H; [reflexivity|zl]|..]; try done; try lia; subst; unfold pre2; na.
  - destruct W as (Wl & Wr & V4 & _). rewrite zlen_app' in L, H. pose proof (lits_nonneg l). pose proof (lits_nonneg r). destruct (op_before op V4) as (O1 & O2 & O3 & O4 & O5).
    eapply (IHl pre (op :: show r ++ post)); try done; [lia|subst; na|]. intros t1 E1 L1.
    eapply (run_skip_eq lgth (pre ++ show (num id l)) op (show r ++ post)); [lia|done|subst; na|done|].
    eapply (IHr ((pre ++ show (num id l)) ++ [op]) post); try done; [lia|lia|by apply before_snoc|lia|subst; na|]. intros t2 E2 L2.
    eapply run_eq; [apply H; [reflexivity|zl]|..]; try done; try lia; subst; na.
Qed.
Lemma fill_show e : wf e -> zlen (literals e) <= 10 -> zlen (show e) < npos -> fillValuesInExpr (show e) = Ok (show (num 0 e), literals e).
Proof.
  intros W L Z. unfold fillValuesInExpr. assert (R : run (zlen (show e)) (show e) 0 0 [] (show (num 0 e), literals e)).
  { eapply (run_expr (zlen (show e)) e Z [] []); [done|lia|lia|by left|done|lia|by rewrite app_nil_r|done|]. intros t E Lt. cbn [app] in *. rewrite app_nil_r in E. subst t.
    intros fuel F. destruct fuel as [|fuel]; [lia|]. cbn [fillLoop]. rewrite (proj2 (Z.eqb_neq _ _)) by lia. unfold findFirst. rewrite (proj2 (Z.leb_le _ _)) by lia. by rewrite Z.eqb_refl. }
  apply R. unfold zlen. lia.
Qed.

(** *** The values come back *)
Lemma replace_sub vals ns fs : replaceValues vals (Sub ns fs) = let* s := allM (replaceValues vals) ns in Ok (Sub s fs).
Proof.
  cbn [replaceValues]. f_equal. induction ns as [|x ns IH]; [done|]. cbn [allM]. by rewrite IH.
Qed.
Lemma allM_app {A B} (f : A -> res B) a b x y : allM f a = Ok x -> allM f b = Ok y -> allM f (a ++ b) = Ok (x ++ y).
Proof.
  revert x. induction a as [|c a IH]; intros x Ha Hb; cbn [app allM] in *; [injection Ha as <-; done|].
  destruct (f c); cbn [bind] in *; [|done..]. destruct (allM f a) as [l| | |]; cbn [bind] in *; [|done..]. injection Ha as <-. by rewrite (IH l).
Qed.
Lemma replace_tree e : forall id pre post, 0 <= id -> id + zlen (literals e) <= 10 -> zlen pre = id -> replaceValues (pre ++ literals e ++ post) (tree (num id e)) = Ok (tree e).
Proof.
  induction e as [sg l|sg n|sg e IH|f a IH|f a IHa b IHb|a IHa b IHb c IHc|op l IHl r IHr]; intros id pre post I L E; cbn [num tree literals] in *.
  - change (zlen [litDec l]) with 1 in L. cbn [replaceValues replaceLeaf]. rewrite num_dec by lia. unfold toInt. change (0 <=? 0) with true. cbn iota. replace (id * 10 ^ 0) with id by lia.
    rewrite (proj2 (Z.leb_gt _ _)) by lia. cbn [ubif bind]. rewrite zlen_app'. cbn [app]. rewrite zlen_cons'. pose proof (zlen_nonneg' post).
    rewrite (proj2 (Z.leb_gt _ _)) by lia. rewrite (proj2 (Z.ltb_ge id 0)) by lia. cbn [orb ifthrow].
    assert (R : rd (pre ++ litDec l :: post) id = Ok (litDec l)). { unfold rd. rewrite zlook_app_r by lia. rewrite E, Z.sub_diag. done. }
    rewrite R. done.
  - done.
  - rewrite replace_sub. cbn [allM]. rewrite IH by done. done.
  - rewrite replace_sub. cbn [allM]. rewrite IH by done. done.
  - rewrite zlen_app' in L. pose proof (lits_nonneg a). pose proof (lits_nonneg b). rewrite replace_sub. cbn [allM]. rewrite <- app_assoc. rewrite IHa by lia. cbn [bind].
    rewrite (app_assoc pre). rewrite IHb by (rewrite ?zlen_app'; lia). done.
  - rewrite !zlen_app' in L. pose proof (lits_nonneg a). pose proof (lits_nonneg b). pose proof (lits_nonneg c). rewrite replace_sub. cbn [allM].
    replace (pre ++ (literals a ++ literals b ++ literals c) ++ post) with (pre ++ literals a ++ (literals b ++ literals c ++ post)) by (by rewrite <- !app_assoc). rewrite IHa by lia. cbn [bind].
    rewrite (app_assoc pre). rewrite IHb by (rewrite ?zlen_app'; lia). cbn [bind].
    rewrite (app_assoc (pre ++ literals a)). rewrite IHc by (rewrite ?zlen_app'; lia). done.
  - rewrite zlen_app' in L. pose proof (lits_nonneg l). pose proof (lits_nonneg r). rewrite num_level.
    assert (Hl : replaceValues (pre ++ (literals l ++ literals r) ++ post) (tree (num id l)) = Ok (tree l)) by (rewrite <- app_assoc; apply IHl; lia).
    assert (Hr : replaceValues (pre ++ (literals l ++ literals r) ++ post) (tree (num (id + zlen (literals l)) r)) = Ok (tree r)).
    { replace (pre ++ (literals l ++ literals r) ++ post) with ((pre ++ literals l) ++ literals r ++ post) by (by rewrite <- !app_assoc). apply IHr; rewrite ?zlen_app'; lia. }
    assert (Hr1 : allM (replaceValues (pre ++ (literals l ++ literals r) ++ post)) [tree (num (id + zlen (literals l)) r)] = Ok [tree r]) by (cbn [allM]; by rewrite Hr).
    assert (Hl1 : allM (replaceValues (pre ++ (literals l ++ literals r) ++ post)) [tree (num id l)] = Ok [tree l]) by (cbn [allM]; by rewrite Hl).
    rewrite replace_sub. destruct (level l =? lvl op).
    + destruct (tree (num id l)) as [lf ng|ns fs] eqn:T.
      * cbn [replaceValues] in Hl. destruct (replaceLeaf _ lf) as [lf'| | |]; cbn [bind] in Hl; [|done..]. injection Hl as Hl. rewrite <- Hl in Hl1 |- *. cbn [fst snd]. rewrite (allM_app _ _ _ _ _ Hl1 Hr1). done.
      * rewrite replace_sub in Hl. destruct (allM _ ns) as [ns'| | |] eqn:A; cbn [bind] in Hl; [|done..]. injection Hl as <-. cbn [fst snd]. rewrite (allM_app _ _ _ _ _ A Hr1). done.
    + cbn [fst snd]. rewrite (allM_app _ _ _ _ _ Hl1 Hr1). done.
Qed.

(** *** Evaluation *)
Section Eval.
  Context {D : Type} (o : ops D).
  Lemma evalNode_sub ns fs : evalNode o (Sub ns fs) = let* vs := allM (evalNode o) ns in let* st := operateAll o fs vs in match st with a :: _ => Ok a | [] => UB end.
  Proof using All.
    cbn [evalNode]. assert (E : forall ns, (fix go (l : list node) := match l with [] => Ok [] | x :: r => let* y := evalNode o x in let* t := go r in Ok (y :: t) end) ns = allM (evalNode o) ns).
    { intros l. induction l as [|x l IH]; [done|]. cbn [allM]. by rewrite IH. }
    rewrite E. destruct (allM (evalNode o) ns); done.
  Qed.
  Fixpoint pushAll (l : list node) (st : list D) : res (list D) := match l with [] => Ok st | x :: r => let* st := pushAll r st in evalStack o x st end.
  Lemma evalStack_sub ns fs st : evalStack o (Sub ns fs) st = let* st := pushAll ns st in operateAll o fs st.
  Proof using All.
    cbn [evalStack]. f_equal. induction ns as [|x l IH]; [done|]. cbn [pushAll]. by rewrite IH.
  Qed.
  Lemma pushAll_app a b st : pushAll (a ++ b) st = let* st := pushAll b st in pushAll a st.
  Proof using All. induction a as [|x a IH]; cbn [app pushAll]; [by destruct (pushAll b st)|]. rewrite IH. by destruct (pushAll b st). Qed.
  Lemma operateAll_app a b st : operateAll o (a ++ b) st = let* st := operateAll o a st in operateAll o b st.
  Proof using All. unfold operateAll. revert st. induction a as [|x a IH]; intros st; [done|]. cbn [app foldM]. destruct (operate o x st); cbn [bind]; [apply IH|done..]. Qed.
  (** The sub expressions [ns] have the values [vs], from which the functions make [v]. *)
  Definition good (n : node) (v : D) : Prop :=
    evalNode o n = Ok v /\ (forall st, evalStack o n st = Ok (v :: st)) /\
    match n with Leaf _ _ => True | Sub ns fs => exists vs, allM (evalNode o) ns = Ok vs /\ (forall st, pushAll ns st = Ok (vs ++ st)) /\ forall st, operateAll o fs (vs ++ st) = Ok (v :: st) end.
  Lemma good_sub ns fs vs v : Forall2 good ns vs -> (forall st, operateAll o fs (vs ++ st) = Ok (v :: st)) -> good (Sub ns fs) v.
  Proof using All.
    intros H F. assert (A : allM (evalNode o) ns = Ok vs) by (apply allM_Forall; eapply Forall2_impl; [exact H|]; intros x y (E & _); done).
    assert (P : forall st, pushAll ns st = Ok (vs ++ st)).
    { intros st. clear -H. induction H as [|x y ns vs (_ & E & _) _ IH]; [done|]. cbn [pushAll]. rewrite IH. cbn [bind]. by rewrite E. }
    split; [|split].
    - rewrite evalNode_sub, A. cbn [bind]. specialize (F []). rewrite app_nil_r in F. by rewrite F.
    - intros st. rewrite evalStack_sub, P. cbn [bind]. apply F.
    - exists vs. done.
  Qed.
  Lemma good_leaf l s : good (Leaf l (isMinus s)) (signed o s (leafValue o l)).
  Proof using All. by destruct s. Qed.
  Lemma good_bin ns fs op vl nr vr : good (Sub ns fs) vl -> good nr vr -> good (Sub (ns ++ [nr]) (fs ++ [fbin op])) (o_bin o [op] vl vr).
  Proof using All.
    intros (_ & _ & vs & A & P & F) (Er & Sr & _).
    assert (A' : allM (evalNode o) (ns ++ [nr]) = Ok (vs ++ [vr])) by (apply allM_app; [done|cbn [allM]; by rewrite Er]).
    assert (P' : forall st, pushAll (ns ++ [nr]) st = Ok ((vs ++ [vr]) ++ st)).
    { intros st. rewrite pushAll_app. cbn [pushAll bind]. rewrite Sr. cbn [bind]. rewrite P. by rewrite <- app_assoc. }
    assert (F' : forall st, operateAll o (fs ++ [fbin op]) ((vs ++ [vr]) ++ st) = Ok (o_bin o [op] vl vr :: st)).
    { intros st. rewrite operateAll_app. rewrite <- app_assoc. rewrite F. done. }
    split; [|split].
    - rewrite evalNode_sub, A'. cbn [bind]. specialize (F' []). rewrite app_nil_r in F'. by rewrite F'.
    - intros st. rewrite evalStack_sub, P'. cbn [bind]. apply F'.
    - exists (vs ++ [vr]). done.
  Qed.
  Lemma good_tree e : wf e -> good (tree e) (value o e).
  Proof using All.
    induction e as [sg l|sg n|sg e IH|f a IH|f a IHa b IHb|a IHa b IHb c IHc|op l IHl r IHr]; intros W; cbn [wf tree value] in *.
    - apply good_leaf.
    - apply good_leaf.
    - apply (good_sub _ _ [value o e]); [constructor; [tauto|constructor]|]. intros st. by destruct sg.
    - apply (good_sub _ _ [value o a]); [constructor; [tauto|constructor]|]. done.
    - apply (good_sub _ _ [value o a; value o b]); [constructor; [tauto|]; constructor; [tauto|constructor]|]. done.
    - apply (good_sub _ _ [value o a; value o b; value o c]); [constructor; [tauto|]; constructor; [tauto|]; constructor; [tauto|constructor]|]. done.
    - destruct W as (Wl & Wr & V4 & _). specialize (IHl Wl). specialize (IHr Wr). destruct (level l =? lvl op) eqn:E.
      + destruct (tree l) as [lf ng|ns fs] eqn:T.
        * destruct l; try (cbn [level] in E; lia). cbn [tree] in T. done.
        * cbn [fst snd]. by apply good_bin.
      + cbn [fst snd app]. apply (good_sub _ _ [value o l; value o r]); [constructor; [done|]; constructor; [done|constructor]|]. done.
  Qed.
End Eval.

Lemma parse_show text e : wf e -> zlen (literals e) <= 10 -> zlen (s2l text) < npos -> deleteWhiteSpaces (s2l text) = show e -> parse (s2l text) = Ok (tree e).
Proof.
  intros W L Z E. assert (Z' : zlen (show e) < npos).
  { rewrite <- E. unfold deleteWhiteSpaces. pose proof (filter_length (fun c => notIn (s2l " ") c && negb (is "010" c) = true) (s2l text)). unfold zlen in *. lia. }
  unfold parse. rewrite E. cbv zeta. rewrite bool_decide_eq_false_2 by (by apply show_nonempty). cbn [ifthrow]. rewrite fill_show by done. cbn [bind].
  pose proof (num_wf e 0 W ltac:(lia) ltac:(lia)) as Wn. pose proof (num_len e 0 W) as Ln.
  assert (C : checkBrackets 0 (show (num 0 e)) = Ok ()). { rewrite <- (app_nil_r (show (num 0 e))). rewrite checkBrackets_bal by (try lia; by apply show_bal). done. }
  rewrite C. cbn [bind]. rewrite parseDeep_show; [|done|done|apply num_plain|lia]. cbn [bind].
  pose proof (replace_tree e 0 [] [] ltac:(lia) ltac:(lia) eq_refl) as R. by rewrite app_nil_r in R.
Qed.
Lemma noSpaces_eq l : noSpaces l = deleteWhiteSpaces l.
Proof.
  unfold noSpaces, deleteWhiteSpaces. apply list_filter_iff. intros c. unfold notIn, isIn, is. cbn [s2l list_ascii_of_string existsb]. rewrite orb_false_r.
  destruct (Ascii.eqb_spec c " "), (Ascii.eqb_spec c "010"); naive_solver.
Qed.
Theorem evaluate_show {D} (o : ops D) text e : wf e -> zlen (literals e) <= 10 -> zlen (s2l text) < npos -> noSpaces (s2l text) = show e ->
  evaluate o text = Ok (value o e) /\ evaluateFast o text = Ok (value o e).
Proof.
  rewrite noSpaces_eq.
  intros W L Z E. unfold evaluate, evaluateFast. rewrite (parse_show text e) by done. cbn [bind]. destruct (good_tree o e W) as (H1 & H2 & _). rewrite H1, H2. done.
Qed.
