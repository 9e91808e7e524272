(** Expressions: the text is cut at its operators of lowest level. *)
From Coq Require Import Ascii String ZifyBool ZifyNat.
From stdpp Require Import strings.
From Verif Require Import Base ExModel ExSpec ExProofs.
Local Open Scope Z_scope.

Definition push (l : list ascii) (s : scan) : scan := Scan (sc_level s) (sc_cur s ++ l) (sc_subs s) (sc_fs s) (sc_ok s).
Lemma push_nil s : push [] s = s.
Proof. destruct s. unfold push. cbn. by rewrite app_nil_r. Qed.
Lemma push_app a b s : push b (push a s) = push (a ++ b) s.
Proof. unfold push. cbn. by rewrite app_assoc. Qed.

Section Scan.
  Context (os : ascii -> bool) (bl : bool) (act : list ascii -> action).
  Lemma scan_app a b s : scanLoop os bl act (a ++ b) s = let* s := scanLoop os bl act a s in scanLoop os bl act b s.
  Proof using All.
    revert s. induction a as [|c a IH]; intros s; [done|]. cbn [app scanLoop].
    destruct (os c).
    - destruct (bl && negb (sc_level s =? 0)); [apply IH|]. destruct (act (sc_cur s)); [apply IH| |done]. destruct (buildFunc [c] 2); cbn [bind]; [apply IH|done..].
    - destruct (is "(" c); [apply IH|]. destruct (is ")" c); apply IH.
  Qed.
  Lemma scan_app_ok a b s s' : scanLoop os bl act a s = Ok s' -> scanLoop os bl act (a ++ b) s = scanLoop os bl act b s'.
  Proof using All. intros H. by rewrite scan_app, H. Qed.
  (** Text between brackets, or without operator. *)
  Lemma scan_bal l : os "("%char = false -> os ")"%char = false -> bal l -> forall s, (bl = true /\ 1 <= sc_level s) \/ Forall (fun c => os c = false) l -> scanLoop os bl act l s = Ok (push l s).
  Proof using All.
    intros O1 O2. induction 1 as [|c l H1 H2 Hl IH|x y Hx IHx Hy IHy]; intros s C.
    - cbn. by rewrite push_nil.
    - cbn [scanLoop]. rewrite H1, H2. assert (C' : (bl = true /\ 1 <= sc_level s) \/ Forall (fun c => os c = false) l) by (destruct C as [C|C]; [left; exact C|right; apply Forall_cons in C as [_ C]; exact C]).
      assert (E : scanLoop os bl act l (Scan (sc_level s) (sc_cur s ++ [c]) (sc_subs s) (sc_fs s) (sc_ok s)) = Ok (push (c :: l) s)).
      { rewrite IH by done. unfold push. cbn. by rewrite <- app_assoc. }
      destruct (os c) eqn:F; [|exact E]. destruct C as [[-> C]|C]; [|apply Forall_cons in C as [C _]; congruence].
      replace (true && negb (sc_level s =? 0)) with true by lia. exact E.
    - cbn [scanLoop]. rewrite O1. change (is "(" "(") with true. cbn iota.
      erewrite scan_app_ok; [|apply IHx]; cycle 1. { destruct C as [C|C]; [left; cbn; lia|right]. apply Forall_cons in C as [_ C]. apply Forall_app in C as [C _]. exact C. }
      cbn [scanLoop]. rewrite O2. change (is "(" ")") with false. change (is ")" ")") with true. cbn iota.
      rewrite IHy; cycle 1. { destruct C as [C|C]; [left; cbn; lia|right]. apply Forall_cons in C as [_ C]. apply Forall_app in C as [_ C]. apply Forall_cons in C as [_ C]. exact C. }
      unfold push. cbn. f_equal. f_equal; [lia|]. rewrite <- !app_assoc. done.
  Qed.
End Scan.

Definition opsOf (k : Z) : ascii -> bool := if k =? 0 then isIn (s2l "><") else if k =? 1 then isIn signs else if k =? 2 then isIn (s2l "/*") else is "^".
Definition actOf (k : Z) : list ascii -> action := if k =? 1 then notAfterOperator else notFirst.
Definition parseAt (k : Z) : list ascii -> res (option (list (list ascii) * list fn)) := parseFor (opsOf k) (negb (k =? 0)) (actOf k).
Lemma kcases k : 0 <= k < 4 -> k = 0 \/ k = 1 \/ k = 2 \/ k = 3.
Proof. lia. Qed.
Lemma ops_paren k : opsOf k "("%char = false /\ opsOf k ")"%char = false /\ opsOf k ","%char = false.
Proof. unfold opsOf. repeat case_match; done. Qed.
Lemma ops_ok k c : okc c -> opsOf k c = false.
Proof. intros H. apply ok_facts in H. unfold opsOf. repeat case_match; tauto. Qed.
Lemma ops_op k op : 0 <= k < 4 -> lvl op < 4 -> opsOf k op = (lvl op =? k).
Proof. intros K H. apply op_facts in H. unfold opsOf. destruct (kcases k K) as [-> |[-> |[-> | ->]]]; cbn [Z.eqb Pos.eqb]; tauto. Qed.

(** What may stand before a sign. *)
Definition start (k : Z) (cur : list ascii) : Prop := k = 1 -> notAfterOperator cur = Append.
Lemma scan_one k c s : 0 < k < 4 -> sc_level s = 0 -> is "(" c = false -> is ")" c = false -> opsOf k c = false \/ actOf k (sc_cur s) = Append ->
  scanLoop (opsOf k) true (actOf k) [c] s = Ok (push [c] s).
Proof.
  intros K L H1 H2 C. cbn [scanLoop]. rewrite L, H1, H2. destruct (opsOf k c); [|unfold push; by rewrite L]. destruct C as [C|C]; [done|].
  change (true && negb (0 =? 0)) with false. cbn iota. rewrite C. unfold push. by rewrite L.
Qed.
Lemma scan_sign k sg s : 0 < k < 4 -> sc_level s = 0 -> start k (sc_cur s) -> scanLoop (opsOf k) true (actOf k) (showSign sg) s = Ok (push (showSign sg) s).
Proof.
  intros K L H. destruct sg; cbn [showSign]; [by rewrite push_nil| |]; (apply scan_one; [done..|]); destruct (kcases k ltac:(lia)) as [-> |[-> |[-> | ->]]]; first [lia|by left|right; by apply H].
Qed.
Lemma scan_ok k bl l s : Forall okc l -> scanLoop (opsOf k) bl (actOf k) l s = Ok (push l s).
Proof. intros H. apply scan_bal; try apply ops_paren; [by apply ok_bal|]. right. eapply Forall_impl; [exact H|]. apply ops_ok. Qed.
Lemma scan_par k l s : 0 < k < 4 -> sc_level s = 0 -> bal l -> scanLoop (opsOf k) true (actOf k) ("("%char :: l ++ [")"%char]) s = Ok (push ("("%char :: l ++ [")"%char]) s).
Proof.
  intros K L B. destruct (ops_paren k) as (P1 & P2 & _). cbn [scanLoop]. rewrite P1. change (is "(" "(") with true. cbn iota.
  erewrite scan_app_ok; [|apply scan_bal; [done|done|done|]; left; cbn; split; [done|lia]].
  cbn [scanLoop]. rewrite P2. change (is "(" ")") with false. change (is ")" ")") with true. cbn iota. unfold push. cbn. f_equal. f_equal; [lia|]. by rewrite <- !app_assoc.
Qed.

Lemma scan_flat k e : 0 < k < 4 -> wf e -> plain e -> k < level e -> forall s, sc_level s = 0 -> start k (sc_cur s) -> scanLoop (opsOf k) true (actOf k) (show e) s = Ok (push (show e) s).
Proof.
  intros K. assert (C0 : forall f l s, Forall okc f -> bal l -> sc_level s = 0 -> scanLoop (opsOf k) true (actOf k) (f ++ "("%char :: l ++ [")"%char]) s = Ok (push (f ++ "("%char :: l ++ [")"%char]) s)).
  { intros f l s F B L. erewrite scan_app_ok; [|by apply scan_ok]. rewrite scan_par by done. by rewrite push_app. }
  induction e as [sg l|sg n|sg e IH|f a IH|f a IHa b IHb|a IHa b IHb c IHc|op l IHl r IHr]; intros W P V s L St; pose proof (show_bal _ W) as B; cbn [wf show plain level] in *.
  - rewrite plain_lit by tauto. erewrite scan_app_ok; [|by apply scan_sign]. rewrite scan_ok by (apply digits_ok; exact (proj1 W)). by rewrite push_app.
  - erewrite scan_app_ok; [|by apply scan_sign]. rewrite scan_ok by apply W. by rewrite push_app.
  - erewrite scan_app_ok; [|by apply scan_sign]. rewrite scan_par; [by rewrite push_app|done|done|]. apply show_bal, W.
  - apply C0; [apply (unary_ok f); tauto| |done]. apply show_bal; tauto.
  - replace (show a ++ ","%char :: show b ++ [")"%char]) with ((show a ++ ","%char :: show b) ++ [")"%char]) by (by rewrite <- app_assoc).
    apply C0; [apply (binary_ok f); tauto| |done]. apply bal_app; [apply show_bal; tauto|]. apply bal_c; [done|done|]. apply show_bal; tauto.
  - replace (show a ++ ","%char :: show b ++ ","%char :: show c ++ [")"%char]) with ((show a ++ ","%char :: show b ++ ","%char :: show c) ++ [")"%char]) by (rewrite <- !app_assoc; cbn [app]; by rewrite <- !app_assoc).
    apply C0; [apply if_ok| |done]. apply bal_app; [apply show_bal; tauto|]. apply bal_c; [done|done|]. apply bal_app; [apply show_bal; tauto|]. apply bal_c; [done|done|]. apply show_bal; tauto.
  - destruct W as (Wl & Wr & V4 & Vl & Vr & _). destruct P as [Pl Pr]. destruct (op_facts op V4) as (_ & _ & _ & E1 & E2 & _).
    erewrite scan_app_ok; [|apply IHl; try done; lia].
    change (op :: show r) with ([op] ++ show r). erewrite scan_app_ok; [|apply scan_one; [done|done|done|done|]; left; rewrite ops_op by lia; lia].
    rewrite IHr; [|done|done|lia|done|].
    + by rewrite !push_app.
    + intros ->. unfold notAfterOperator, push. cbn [sc_cur]. rewrite last_snoc. assert (X : isIn (s2l "*/^") op = true); [|by rewrite X].
      clear - V V4. opc V4; try done; vm_compute in V; lia.
Qed.

(** Without comparison. *)
Lemma nocmp_chars e : wf e -> plain e -> nocmp e -> Forall (fun c => opsOf 0 c = false) (show e).
Proof.
  assert (K : forall l, Forall okc l -> Forall (fun c => opsOf 0 c = false) l) by (intros l H; eapply Forall_impl; [exact H|apply ops_ok]).
  assert (G : forall s, Forall (fun c => opsOf 0 c = false) (showSign s)) by (intros []; repeat constructor).
  induction e as [sg l|sg n|sg e IH|f a IH|f a IHa b IHb|a IHa b IHb c IHc|op l IHl r IHr]; cbn [wf show plain nocmp]; intros W P N; repeat first [rewrite Forall_app|rewrite Forall_cons|rewrite Forall_nil].
  - split; [done|]. rewrite plain_lit by tauto. apply K, digits_ok; exact (proj1 W).
  - split; [done|]. apply K, W.
  - repeat split; try done. apply IH; tauto.
  - repeat split; try done; [apply K, (unary_ok f)|apply IH]; tauto.
  - repeat split; try done; [apply K, (binary_ok f)|apply IHa|apply IHb]; tauto.
  - repeat split; try done; [apply K, if_ok|apply IHa; tauto|apply IHb; tauto|apply IHc; tauto].
  - split; [apply IHl; tauto|]. split; [|apply IHr; tauto]. rewrite ops_op by (pose proof (lvl_nonneg op); lia). lia.
Qed.

(** The parts of an expression and the operators of level [k] between them. *)
Fixpoint spine (k : Z) (e : expr) : list expr * list ascii :=
  match e with
  | EBin op l r => if lvl op =? k then ((spine k l).1 ++ [r], (spine k l).2 ++ [op]) else ([e], [])
  | _ => ([e], []) end.
Definition flat (k : Z) (e : expr) : Prop := if k =? 0 then nocmp e else k < level e.
Lemma flat_level k e : 0 <= k < 4 -> flat k e -> level e <> k.
Proof. unfold flat. destruct (k =? 0) eqn:E; [|lia]. intros K H. destruct e; cbn in *; try lia. Qed.
Lemma flat_spine k e : level e <> k -> spine k e = ([e], []).
Proof. destruct e; try done. cbn. intros H. by rewrite (proj2 (Z.eqb_neq _ _)). Qed.
Lemma scan_flat' k e : 0 <= k < 4 -> wf e -> plain e -> flat k e -> forall s, sc_level s = 0 -> start k (sc_cur s) -> scanLoop (opsOf k) (negb (k =? 0)) (actOf k) (show e) s = Ok (push (show e) s).
Proof.
  intros K W P F s L St. unfold flat in F. destruct (k =? 0) eqn:E.
  - apply Z.eqb_eq in E. subst k. apply scan_bal; try apply ops_paren; [by apply show_bal|]. right. by apply nocmp_chars.
  - apply scan_flat; try done. lia.
Qed.
Lemma split_after k q : wf q -> plain q -> actOf k (show q) = Split.
Proof.
  intros W P. unfold actOf. destruct (k =? 1).
  - destruct (show_last q W P) as (c & E & H). unfold notAfterOperator. by rewrite E, H.
  - unfold notFirst. rewrite bool_decide_eq_false_2; [done|]. by apply show_nonempty.
Qed.
Definition fbin (op : ascii) : fn := FBin [op].
Lemma scan_spine k e : 0 <= k < 4 -> wf e -> plain e -> flat k e \/ level e = k -> exists ps q os, spine k e = (ps ++ [q], os) /\ wf q /\ plain q /\
  scanLoop (opsOf k) (negb (k =? 0)) (actOf k) (show e) (Scan 0 [] [] [] false) = Ok (Scan 0 (show q) (show <$> ps) (fbin <$> os) (negb (bool_decide (os = [])))).
Proof.
  intros K. assert (F0 : forall e, wf e -> plain e -> flat k e -> exists ps q os, spine k e = (ps ++ [q], os) /\ wf q /\ plain q /\
    scanLoop (opsOf k) (negb (k =? 0)) (actOf k) (show e) (Scan 0 [] [] [] false) = Ok (Scan 0 (show q) (show <$> ps) (fbin <$> os) (negb (bool_decide (os = []))))).
  { intros x W P F. exists [], x, []. rewrite flat_spine by (by apply flat_level). split; [done|]. split; [done|]. split; [done|].
    rewrite scan_flat' by done. done. }
  induction e as [sg l|sg n|sg e IH|f a IH|f a IHa b IHb|a IHa b IHb c IHc|op l IHl r IHr]; intros W P G; (destruct G as [G|G]; [by apply F0|]); try (cbn in G; lia).
  cbn [level] in G. cbn [wf] in W. destruct W as (Wl & Wr & V4 & Vl & Vr & Nr & Nl). destruct P as [Pl Pr].
  assert (Fr : flat k r) by (unfold flat; destruct (k =? 0) eqn:E; [done|lia]).
  assert (Gl : flat k l \/ level l = k).
  { unfold flat. destruct (k =? 0) eqn:E; [destruct Nl as [Nl|Nl]; [by left|right; lia]|lia]. }
  destruct (IHl Wl Pl Gl) as (ps & q & os & E & Wq & Pq & R). exists (ps ++ [q]), r, (os ++ [op]).
  cbn [spine]. rewrite (proj2 (Z.eqb_eq _ _) G), E. cbn [fst snd]. split; [done|]. split; [done|]. split; [done|].
  cbn [show]. erewrite scan_app_ok; [|exact R]. destruct (op_facts op V4) as (_ & _ & _ & E1 & E2 & _ & _ & _ & _ & _ & BF).
  cbn [scanLoop sc_level sc_cur]. rewrite ops_op by done. rewrite (proj2 (Z.eqb_eq _ _) G). change (negb (0 =? 0)) with false. rewrite andb_false_r. cbn iota.
  rewrite split_after by done. rewrite BF. cbn [bind sc_subs sc_fs]. rewrite scan_flat' by done. unfold push. cbn [sc_level sc_cur sc_subs sc_fs sc_ok app].
  f_equal. f_equal; [by rewrite fmap_app|by rewrite fmap_app|]. rewrite bool_decide_eq_false_2; [done|]. intros X. by apply app_eq_nil in X as [_ X].
Qed.
Lemma parseAt_none k e : 0 <= k < 4 -> wf e -> plain e -> flat k e -> parseAt k (show e) = Ok None.
Proof.
  intros K W P F. unfold parseAt, parseFor. rewrite scan_flat' by done. done.
Qed.
Lemma parseAt_some k e : 0 <= k < 4 -> wf e -> plain e -> level e = k -> parseAt k (show e) = Ok (Some (show <$> (spine k e).1, fbin <$> (spine k e).2)).
Proof.
  intros K W P F. unfold parseAt, parseFor. destruct (scan_spine k e K W P (or_intror F)) as (ps & q & os & E & Wq & Pq & R). rewrite R. cbn [bind sc_ok sc_cur sc_subs sc_fs].
  rewrite E. cbn [fst snd]. assert (N : os <> []).
  { destruct e; try (cbn in F; lia). cbn [spine] in E. cbn [level] in F. rewrite (proj2 (Z.eqb_eq _ _) F) in E. injection E as _ <-. intros X. by apply app_eq_nil in X as [_ X]. }
  rewrite bool_decide_eq_false_2 by done. cbn [negb]. rewrite bool_decide_eq_false_2 by (by apply show_nonempty). cbn [ifthrow]. by rewrite fmap_app.
Qed.
Lemma spine_parts k e : 0 <= k < 4 -> wf e -> plain e -> Forall (fun p => wf p /\ plain p /\ (length (show p) <= length (show e))%nat) (spine k e).1.
Proof.
  intros K. induction e as [sg l|sg n|sg e IH|f a IH|f a IHa b IHb|a IHa b IHb c IHc|op l IHl r IHr]; intros W P; try (cbn [spine fst]; apply Forall_singleton; split; [exact W|]; split; [exact P|done]).
  cbn [spine]. destruct (lvl op =? k); [|apply Forall_singleton; split; [exact W|]; split; [exact P|done]]. cbn [fst]. cbn [wf plain] in W, P. apply Forall_app. split.
  - eapply Forall_impl; [apply IHl; tauto|]. intros x (H1 & H2 & H3). split; [done|]. split; [done|]. cbn [show]. rewrite app_length. lia.
  - apply Forall_singleton. split; [tauto|]. split; [tauto|]. cbn [show]. rewrite app_length. cbn [length]. lia.
Qed.
Lemma spine_smaller op l r : wf (EBin op l r) -> plain (EBin op l r) ->
  Forall (fun p => wf p /\ plain p /\ (length (show p) < length (show (EBin op l r)))%nat) (spine (lvl op) (EBin op l r)).1.
Proof.
  intros W P. cbn [spine]. rewrite Z.eqb_refl. cbn [fst]. cbn [wf plain] in W, P. pose proof (lvl_nonneg op). apply Forall_app. split.
  - eapply Forall_impl; [apply spine_parts; [lia|tauto|tauto]|]. intros x (H1 & H2 & H3). split; [done|]. split; [done|]. cbn [show]. rewrite app_length. cbn [length]. lia.
  - apply Forall_singleton. split; [tauto|]. split; [tauto|]. cbn [show]. rewrite app_length. cbn [length]. lia.
Qed.
