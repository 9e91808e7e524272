(** Expressions: characters, brackets, search of operators. *)
From Coq Require Import Ascii String ZifyBool ZifyNat.
From stdpp Require Import strings.
From Verif Require Import Base ExModel ExSpec.
Local Open Scope Z_scope.

Lemma all_chars (p : ascii -> bool) : forallb (fun n => p (ascii_of_nat n)) (seq 0 256) = true -> forall c, p c = true.
Proof.
  intros H c. rewrite forallb_forall in H. specialize (H (nat_of_ascii c)). rewrite ascii_nat_embedding in H. apply H.
  apply in_seq. pose proof (nat_ascii_bounded c). lia.
Qed.

Lemma ok_facts c : okName c = true -> isIn special c = false /\ is "," c = false /\ isIn signs c = false /\ isIn operators c = false /\
  isIn (s2l "><") c = false /\ isIn (s2l "/*") c = false /\ isIn (s2l "*/^") c = false /\ is "^" c = false /\ is "(" c = false /\ is ")" c = false.
Proof.
  intros H. pose proof (all_chars (fun c => implb (okName c) (negb (isIn special c) && negb (is "," c) && negb (isIn signs c) && negb (isIn operators c) &&
    negb (isIn (s2l "><") c) && negb (isIn (s2l "/*") c) && negb (isIn (s2l "*/^") c) && negb (is "^" c) && negb (is "(" c) && negb (is ")" c))) ltac:(vm_compute; reflexivity) c) as A.
  cbv beta in A. rewrite H in A. cbn [implb] in A. rewrite !andb_true_iff, !negb_true_iff in A. tauto.
Qed.
Lemma fig_ok c : isIn figures c = true -> okName c = true.
Proof. intros H. pose proof (all_chars (fun c => implb (isIn figures c) (okName c)) ltac:(vm_compute; reflexivity) c) as A. cbv beta in A. rewrite H in A. exact A. Qed.
Lemma op_cases op : lvl op < 4 -> op ∈ (["<"; ">"; "+"; "-"; "*"; "/"; "^"]%char).
Proof.
  intros H. pose proof (all_chars (fun c => implb (lvl c <? 4) (existsb (Ascii.eqb c) ["<"; ">"; "+"; "-"; "*"; "/"; "^"]%char)) ltac:(vm_compute; reflexivity) op) as A.
  cbv beta in A. rewrite (proj2 (Z.ltb_lt _ _) H) in A. cbn [implb] in A. apply existsb_exists in A as (x & Hx & E). apply Ascii.eqb_eq in E. subst x. by apply elem_of_list_In.
Qed.
Ltac opc H := apply op_cases in H; rewrite !elem_of_cons in H; destruct H as [->|[->|[->|[->|[->|[->|[->|H]]]]]]]; [..|by apply elem_of_nil in H].
Lemma op_facts op : lvl op < 4 -> isIn special op = true /\ isIn operators op = true /\ isIn figures op = false /\ is "(" op = false /\ is ")" op = false /\ is "," op = false /\
  isIn (s2l "><") op = (lvl op =? 0) /\ isIn signs op = (lvl op =? 1) /\ isIn (s2l "/*") op = (lvl op =? 2) /\ is "^" op = (lvl op =? 3) /\ buildFunc [op] 2 = Ok (FBin [op]).
Proof. intros H. opc H; vm_compute; repeat split. Qed.
Lemma lvl_nonneg op : 0 <= lvl op.
Proof. unfold lvl. repeat case_match; lia. Qed.

(** *** Brackets *)
Inductive bal : list ascii -> Prop :=
  | bal_nil : bal []
  | bal_c c l : is "(" c = false -> is ")" c = false -> bal l -> bal (c :: l)
  | bal_p a b : bal a -> bal b -> bal ("("%char :: a ++ ")"%char :: b).
Lemma bal_app a b : bal a -> bal b -> bal (a ++ b).
Proof.
  induction 1 as [|c l H1 H2 _ IH|x y Hx _ Hy IH]; intros Hb; [done| |].
  - apply (bal_c c (l ++ b) H1 H2 (IH Hb)).
  - replace ((("("%char :: x ++ ")"%char :: y) ++ b)) with ("("%char :: x ++ ")"%char :: (y ++ b)) by (cbn [app]; by rewrite <- app_assoc).
    apply bal_p; auto.
Qed.
Lemma bal_chars l : Forall (fun c => is "(" c = false /\ is ")" c = false) l -> bal l.
Proof. induction 1 as [|c l [H1 H2] _ IH]; [apply bal_nil|by apply bal_c]. Qed.
Lemma bal_par a : bal a -> bal ("("%char :: a ++ [")"%char]).
Proof. intros H. apply bal_p; [done|apply bal_nil]. Qed.
Lemma bal_last l : bal l -> last l = Some ")"%char -> exists a b, l = a ++ "("%char :: b ++ [")"%char] /\ bal b.
Proof.
  induction 1 as [|c l H1 H2 Hl IH|x y Hx IHx Hy IHy]; intros E; [done| |].
  - destruct l as [|c' l]. { cbn in E. injection E as ->. by vm_compute in H2. }
    rewrite last_cons_cons in E. destruct (IH E) as (a & b & -> & Hb). exists (c :: a), b. done.
  - destruct (decide (y = [])) as [->|N]. { exists [], x. done. }
    destruct (IHy) as (a & b & -> & Hb).
    { rewrite last_cons in E. rewrite last_app in E. rewrite last_cons in E. destruct (last y) eqn:F; [exact E|]. by apply last_None in F. }
    exists ("("%char :: x ++ ")"%char :: a), b. split; [|done]. cbn [app]. by rewrite <- app_assoc.
Qed.
Lemma findOpen_bal l : bal l -> forall lev r, 0 <= lev -> findOpen lev (rev l ++ r) = findOpen lev r.
Proof.
  induction 1 as [|c l H1 H2 Hl IH|x y Hx IHx Hy IHy]; intros lev r L; [done| |].
  - cbn [rev]. rewrite <- app_assoc, IH by lia. cbn [app findOpen]. by rewrite H1, H2.
  - assert (E : rev ("("%char :: x ++ ")"%char :: y) ++ r = rev y ++ ")"%char :: rev x ++ "("%char :: r).
    { cbn [rev]. rewrite rev_app_distr. cbn [rev]. rewrite <- !app_assoc. done. }
    rewrite E, IHy by lia. cbn [findOpen]. change (is ")" ")") with true. cbn iota. rewrite IHx by lia. cbn [findOpen].
    change (is ")" "(") with false. change (is "(" "(") with true. cbn iota. rewrite (proj2 (Z.eqb_neq _ _)) by lia. f_equal. lia.
Qed.
Lemma checkBrackets_bal l : bal l -> forall lev r, 0 <= lev -> checkBrackets lev (l ++ r) = checkBrackets lev r.
Proof.
  induction 1 as [|c l H1 H2 Hl IH|x y Hx IHx Hy IHy]; intros lev r L; [done| |].
  - cbn [app checkBrackets]. rewrite H1, H2. by apply IH.
  - replace (("("%char :: x ++ ")"%char :: y) ++ r) with ("("%char :: x ++ ")"%char :: (y ++ r)) by (cbn [app]; by rewrite <- app_assoc).
    cbn [checkBrackets]. change (is "(" "(") with true. cbn iota. rewrite IHx by lia. cbn [checkBrackets].
    change (is "(" ")") with false. change (is ")" ")") with true. cbn iota. rewrite (proj2 (Z.eqb_neq _ _)) by lia. cbn [ifthrow].
    rewrite IHy by lia. f_equal. lia.
Qed.

(** *** Shape of the text *)
Fixpoint plain (e : expr) : Prop :=
  match e with
  | ENum _ l => l_frac l = None /\ l_exp l = None | EVar _ _ => True | EPar _ e => plain e | ECall _ a => plain a
  | ECall2 _ a b => plain a /\ plain b | EIf a b c => plain a /\ plain b /\ plain c | EBin _ l r => plain l /\ plain r end.
Lemma plain_lit l : l_frac l = None -> l_exp l = None -> showLit l = l_int l.
Proof. intros E F. unfold showLit. rewrite E, F. by rewrite !app_nil_r. Qed.

Definition okc (c : ascii) : Prop := okName c = true.
Lemma okc_np c : okc c -> is "(" c = false /\ is ")" c = false.
Proof. intros H. apply ok_facts in H. tauto. Qed.
Lemma digits_ok l : digits l -> Forall okc l.
Proof. intros H. eapply Forall_impl; [exact H|]. intros c. apply fig_ok. Qed.
Lemma ok_bal l : Forall okc l -> bal l.
Proof. intros H. apply bal_chars. eapply Forall_impl; [exact H|]. apply okc_np. Qed.
Lemma sign_bal s : bal (showSign s).
Proof. destruct s; apply bal_chars; repeat constructor. Qed.
Lemma lit_np l : litOk l -> Forall (fun c => is "(" c = false /\ is ")" c = false) (showLit l).
Proof.
  intros (H1 & _ & H3 & H4). assert (D : forall x, digits x -> Forall (fun c => is "(" c = false /\ is ")" c = false) x).
  { intros x Hx. apply digits_ok in Hx. eapply Forall_impl; [exact Hx|]. apply okc_np. }
  unfold showLit. rewrite !Forall_app. split; [by apply D|]. split.
  - destruct (l_frac l) as [f|]; [|done]. constructor; [done|]. apply D. by apply H3.
  - destruct (l_exp l) as [[[c s] x]|]; [|done]. destruct (H4 c s x eq_refl) as (Hc & Hs & Hx & _).
    assert (is "(" c = false /\ is ")" c = false) by (destruct Hc as [-> | ->]; done).
    destruct s as [a|]; constructor; auto. constructor; auto. destruct (Hs a eq_refl) as [-> | ->]; done.
Qed.
Lemma unary_ok f : f ∈ unaryNames -> f <> s2l "-" -> Forall okc f /\ f <> [] /\ buildFunc f 1 = Ok (FUn f).
Proof.
  intros H N. unfold unaryNames in H. cbn [fmap list_fmap] in H. rewrite !elem_of_cons in H.
  repeat (destruct H as [->|H]; [try (by exfalso; apply N); (split; [repeat constructor; vm_compute; reflexivity|split; [by vm_compute|vm_compute; reflexivity]])|]).
  by apply elem_of_nil in H.
Qed.
Lemma binary_ok f : f = s2l "max" \/ f = s2l "min" -> Forall okc f /\ f <> [] /\ buildFunc f 2 = Ok (FBin f).
Proof. intros [-> | ->]; (split; [repeat constructor; vm_compute; reflexivity|split; [by vm_compute|vm_compute; reflexivity]]). Qed.
Lemma if_ok : Forall okc (s2l "if") /\ buildFunc (s2l "if") 3 = Ok (FTer (s2l "if")).
Proof. split; [repeat constructor; vm_compute; reflexivity|vm_compute; reflexivity]. Qed.

Lemma show_bal e : wf e -> bal (show e).
Proof.
  induction e as [s l|s n|s e IH|f a IH|f a IHa b IHb|a IHa b IHb c IHc|op l IHl r IHr]; cbn [wf show]; intros H.
  - apply bal_app; [apply sign_bal|]. apply bal_chars. by apply lit_np.
  - apply bal_app; [apply sign_bal|]. apply ok_bal. apply H.
  - apply bal_app; [apply sign_bal|]. apply bal_par. apply IH, H.
  - apply bal_app; [apply ok_bal; apply (unary_ok f); tauto|]. apply bal_par. apply IH. tauto.
  - apply bal_app; [apply ok_bal; apply (binary_ok f); tauto|].
    replace (show a ++ ","%char :: show b ++ [")"%char]) with ((show a ++ ","%char :: show b) ++ [")"%char]) by (by rewrite <- app_assoc).
    apply bal_par. apply bal_app; [tauto|]. apply bal_c; [done|done|]. tauto.
  - apply bal_app; [apply ok_bal; apply if_ok|].
    replace (show a ++ ","%char :: show b ++ ","%char :: show c ++ [")"%char]) with ((show a ++ ","%char :: show b ++ ","%char :: show c) ++ [")"%char]) by (rewrite <- !app_assoc; cbn [app]; by rewrite <- !app_assoc).
    apply bal_par. apply bal_app; [tauto|]. apply bal_c; [done|done|]. apply bal_app; [tauto|]. apply bal_c; [done|done|]. tauto.
  - destruct (op_facts op) as (_ & _ & _ & E1 & E2 & _); [tauto|]. apply bal_app; [tauto|]. apply bal_c; [done|done|]. tauto.
Qed.
(** The first character that is not a sign is not an operator. *)
Lemma show_head e : wf e -> exists sg c t, show e = sg ++ c :: t /\ (sg = [] \/ sg = ["+"%char] \/ sg = ["-"%char]) /\ isIn operators c = false.
Proof.
  assert (S0 : forall s, showSign s = [] \/ showSign s = ["+"%char] \/ showSign s = ["-"%char]) by (intros []; auto).
  assert (F0 : forall f u, Forall okc f -> f <> [] -> exists sg c t, f ++ u = sg ++ c :: t /\ (sg = [] \/ sg = ["+"%char] \/ sg = ["-"%char]) /\ isIn operators c = false).
  { intros [|c f] u H N; [done|]. exists [], c, (f ++ u). split; [done|]. split; [auto|]. apply Forall_cons in H as [H _]. apply ok_facts in H. tauto. }
  induction e as [s l|s n|s e IH|f a IH|f a IHa b IHb|a IHa b IHb c IHc|op l IHl r IHr]; cbn [wf show]; intros H.
  - destruct H as (H1 & H2 & _). unfold showLit. destruct (l_int l) as [|c t] eqn:E; [done|]. exists (showSign s), c. eexists. split; [cbn [app]; reflexivity|].
    split; [auto|]. apply Forall_cons in H1 as [H1 _]. apply fig_ok, ok_facts in H1. tauto.
  - destruct H as (H1 & c & t & -> & _). exists (showSign s), c, t. split; [done|]. split; [auto|]. apply Forall_cons in H1 as [H1 _]. apply ok_facts in H1. tauto.
  - exists (showSign s), "("%char. eexists. split; [reflexivity|]. split; [auto|done].
  - apply F0; apply (unary_ok f); tauto.
  - apply F0; apply (binary_ok f); tauto.
  - apply F0; [apply if_ok|by vm_compute].
  - destruct IHl as (sg & c & t & E & Hs & Hc); [tauto|]. exists sg, c, (t ++ op :: show r). rewrite E. split; [by rewrite <- app_assoc|]. done.
Qed.
Lemma show_nonempty e : wf e -> show e <> [].
Proof. intros H E. destruct (show_head e H) as (sg & c & t & F & _). rewrite E in F. symmetry in F. by apply app_eq_nil in F as [_ ?]. Qed.
Lemma last_okc l : Forall okc l -> l <> [] -> exists c, last l = Some c /\ okc c.
Proof. intros H N. destruct (last l) as [c|] eqn:E; [|by apply last_None in E]. exists c. split; [done|]. rewrite Forall_forall in H. apply H. apply last_Some_elem_of in E. done. Qed.
Lemma show_last e : wf e -> plain e -> exists c, last (show e) = Some c /\ isIn (s2l "*/^") c = false.
Proof.
  assert (P0 : forall u v : list ascii, last (u ++ "("%char :: v ++ [")"%char]) = Some ")"%char) by (intros u v; rewrite app_comm_cons, app_assoc; apply last_snoc).
  assert (K : forall c, okc c -> isIn (s2l "*/^") c = false) by (intros c H; apply ok_facts in H; tauto).
  induction e as [s l|s n|s e IH|f a IH|f a IHa b IHb|a IHa b IHb c IHc|op l IHl r IHr]; cbn [wf show plain]; intros H P.
  - destruct H as (H1 & H2 & _). rewrite plain_lit by tauto. rewrite last_app. destruct (last_okc (l_int l)) as (c & -> & Hc); [by apply digits_ok|done|]. eauto.
  - destruct H as (H1 & c & t & E & _). rewrite last_app. destruct (last_okc n) as (c' & -> & Hc); [done|by rewrite E|]. eauto.
  - rewrite P0. eauto.
  - rewrite P0. eauto.
  - exists ")"%char. split; [|done].
    replace (show a ++ ","%char :: show b ++ [")"%char]) with ((show a ++ ","%char :: show b) ++ [")"%char]) by (by rewrite <- app_assoc). apply P0.
  - exists ")"%char. split; [|done].
    replace (show a ++ ","%char :: show b ++ ","%char :: show c ++ [")"%char]) with ((show a ++ ","%char :: show b ++ ","%char :: show c) ++ [")"%char]) by (rewrite <- !app_assoc; cbn [app]; by rewrite <- !app_assoc). apply P0.
  - destruct IHr as (c & E & Hc); [tauto|tauto|]. exists c. split; [|done]. by rewrite last_app, last_cons, E.
Qed.
