From Coq Require Import ZifyBool ZifyNat.
From Verif Require Import Base DataArray ArrLib IndexSpec FillLib SetModel ArithModel ArithSpec ArithProofs ArithProofs2.

Section FILLED.
Context {A : Type} (g : Z -> option A) (N : Z).
Definition filled (n : Z) (b : list (option A)) : Prop := exists k, b = (Some <$> k) ++ malloc A (N - n) /\ zlen k = n /\ forall c, 0 <= c < n -> k @ c = g c.
Lemma filled_0 : filled 0 (malloc A N).
Proof. exists []. rewrite Z.sub_0_r. split; [done|]. split; [done|]. lia. Qed.
Lemma filled_step n b z : filled n b -> n < N -> g n = Some z -> wp (wrc b n z) (filled (n + 1)) False.
Proof.
  intros (k & -> & L & H) Hn Hg. rewrite (wrc_fill k (N - n) n z) by lia. cbn [wp]. exists (k ++ [z]). split; [do 2 f_equal; lia|]. rewrite zlen_app, zlen_cons. change (zlen (@nil A)) with 0. split; [lia|].
  intros c Hc. rewrite zlook_app. destruct (Z.ltb_spec c (zlen k)); [apply H; lia|]. replace c with n by lia. rewrite L, Z.sub_diag. done.
Qed.
Lemma filled_all b : filled N b -> exists l, b = Some <$> l /\ zlen l = N /\ forall c, 0 <= c < N -> l @ c = g c.
Proof. intros (k & -> & L & H). exists k. rewrite fill_done by lia. done. Qed.
End FILLED.
Section ROWS.
Context {A : Type} (f : A -> A -> res A) (u : list A) (σ : Z -> option A).
Let g := G f u σ.
Context (HG : forall c, 0 <= c < zlen u -> exists v, g c = Some v).
Lemma cell_to c (y : A) b : 0 <= c < zlen u -> σ c = Some y -> filled g (zlen u) c b -> wp (let* x := rd u c in let* z := f x y in wrc b c z) (filled g (zlen u) (c + 1)) False.
Proof.
  intros Hc Hy Fb. destruct (HG c Hc) as [v Hv]. pose proof Hv as Hg. unfold g, G in Hv. destruct (u @ c) as [x|] eqn:Ex; [|done]. rewrite Hy in Hv. rewrite (rd_ok _ _ _ Ex). cbn [bind]. destruct (f x y) eqn:Ef; try done. injection Hv as ->. cbn [bind]. apply filled_step; [done|lia|done].
Qed.
Lemma row2_to v q n p b : 0 <= n -> 0 <= p -> p + n <= zlen u -> (forall k, 0 <= k < n -> v @ (q + k) = σ (p + k)) -> filled g (zlen u) p b -> wp (transformTo f u p v q n p b) (filled g (zlen u) (p + n)) False.
Proof.
  intros Hn Hp Hl Hv Fb. unfold transformTo. apply (wp_forZ (fun k b => filled g (zlen u) (p + k) b)); [done|by rewrite Z.add_0_r| |done].
  intros k m Hk Fm. replace (p + (k + 1)) with (p + k + 1) by lia. destruct (HG (p + k) ltac:(lia)) as [w Hw]. unfold g, G in Hw. destruct (u @ (p + k)) as [x|] eqn:Ex; [|done]. destruct (σ (p + k)) as [y|] eqn:Ey; [|done].
  assert (E : v @ (q + k) = Some y) by (rewrite Hv; done). rewrite (rd_ok _ _ _ E). apply (cell_to (p + k) y m); [lia|done|done].
Qed.
Lemma row1_to y n p b : 0 <= n -> 0 <= p -> p + n <= zlen u -> (forall k, 0 <= k < n -> σ (p + k) = Some y) -> filled g (zlen u) p b -> wp (transform1To f u p y n p b) (filled g (zlen u) (p + n)) False.
Proof.
  intros Hn Hp Hl Hv Fb. unfold transform1To. apply (wp_forZ (fun k b => filled g (zlen u) (p + k) b)); [done|by rewrite Z.add_0_r| |done].
  intros k m Hk Fm. replace (p + (k + 1)) with (p + k + 1) by lia. apply (cell_to (p + k) y m); [lia|by apply Hv|done].
Qed.
End ROWS.

Definition new1 {A} (f : A -> A -> res A) (a b : da A) : res (da (option A)) :=
  let* m := alloc A (da_nt a) (da_nc a) in let* m := transformTo f (da_vals a) 0 (da_vals b) 0 (zlen (da_vals a)) 0 m in Ok (DA true (da_nc a) m).
Definition new2 {A} (f : A -> A -> res A) (a b : da A) : res (da (option A)) :=
  let* m := alloc A (da_nt a) (da_nc a) in
  let* (_, m) := forZ 0 (da_nt a) (fun i '(r, m) => let* y := rd (da_vals b) i in let* m := transform1To f (da_vals a) (i * da_nc a) y (da_nc a) r m in Ok (r + da_nc a, m)) (0, m) in Ok (DA true (da_nc a) m).
Definition new3 {A} (f : A -> A -> res A) (a b : da A) : res (da (option A)) :=
  let* m := alloc A (da_nt a) (da_nc a) in
  let* (_, m) := forZ 0 (da_nt a) (fun i '(r, m) => let* m := transformTo f (da_vals a) (i * da_nc a) (da_vals b) 0 (da_nc a) r m in Ok (r + da_nc a, m)) (0, m) in Ok (DA true (da_nc a) m).
Definition new_ok {A} (f : A -> A -> res A) (a b : da A) (r : res (da (option A))) : Prop :=
  builds (da_nt a) (da_nc a) (fun i j v => exists x y, ij a i j = Some x /\ operand a b i j = Some y /\ f x y = Ok v) r.
Lemma new_end {A} (f : A -> A -> res A) (a b : da A) (r : res (list (option A))) : da_wf a -> wp r (filled (G f (da_vals a) (flatOp a b)) (zlen (da_vals a)) (zlen (da_vals a))) False ->
  (forall c, 0 <= c < zlen (da_vals a) -> exists v, G f (da_vals a) (flatOp a b) c = Some v) ->
  new_ok f a b (let* m := r in Ok (DA true (da_nc a) m)).
Proof.
  intros Wa H HG. pose proof (da_wf_len a Wa) as (L & N1 & N2). apply wp_ok in H as (m & -> & F). apply filled_all in F as (l & -> & Ll & Hl). exists l. split; [done|]. split; [lia|].
  intros i j Hi Hj. assert (B : 0 <= i * da_nc a + j < zlen (da_vals a)) by nia. destruct (HG _ B) as [v Hv]. exists v. rewrite Hl, Hv by lia. split; [done|]. unfold G in Hv. rewrite flatOp_at in Hv by done. rewrite ij_at by lia.
  destruct (da_vals a @ _) as [x|]; [|done]. destruct (operand a b i j) as [y|]; [|done]. exists x, y. destruct (f x y) eqn:E; try done. injection Hv as ->. done.
Qed.
Lemma alloc_wf {A} (a : da A) : da_wf a -> alloc A (da_nt a) (da_nc a) = Ok (malloc A (zlen (da_vals a))).
Proof. intros Wa. pose proof (da_wf_len a Wa) as (L & N1 & N2). unfold alloc, ubif. replace ((da_nt a <? 0) || (da_nc a <? 0)) with false by lia. do 2 f_equal. lia. Qed.
Section NEW.
Context {A : Type} (f : A -> A -> res A) (a b : da A) (Wa : da_wf a) (Wb : da_wf b) (F : shapes_fit a b) (D : defined_on f a (operand a b)).
Lemma HG : forall c, 0 <= c < zlen (da_vals a) -> exists v, G f (da_vals a) (flatOp a b) c = Some v.
Proof. eapply (all_defined f a (operand a b)); [done| |done]. intros i j Hi Hj. split; [by rewrite flatOp_at|by apply operand_some]. Qed.
Lemma new1_ok : da_nt a = da_nt b -> da_nc a = da_nc b -> new_ok f a b (new1 f a b).
Proof.
  intros En Ec. unfold new1. rewrite alloc_wf by done. cbn [bind]. apply new_end; [done| |apply HG]. pose proof (da_wf_len a Wa) as (L & N1 & N2).
  pose proof (row2_to f (da_vals a) (flatOp a b) HG (da_vals b) 0 (zlen (da_vals a)) 0 (malloc A (zlen (da_vals a)))) as H. rewrite Z.add_0_l in H. apply H; try lia; [|apply filled_0].
  intros k Hk. rewrite !Z.add_0_l. assert (0 < da_nc a) by nia. destruct (cell_split (da_nc a) k) as (E & B1 & B2); [done|lia|]. unfold flatOp, operand, spread. replace (da_nt b =? da_nt a) with true by lia. replace (da_nc b =? da_nc a) with true by lia.
  rewrite ij_at by lia. rewrite <- Ec, <- E. done.
Qed.
Lemma bind_assoc3 {X Y Z} (m : res X) (k : X -> res Y) (h : Y -> res Z) : (let* y := (let* x := m in k x) in h y) = (let* x := m in let* y := k x in h y).
Proof. destruct m; done. Qed.
Lemma new2_ok : da_nt a = da_nt b -> da_nc a <> da_nc b -> da_nc b = 1 -> new_ok f a b (new2 f a b).
Proof.
  intros En Ec E1. unfold new2. rewrite alloc_wf by done. cbn [bind]. pose proof (da_wf_len a Wa) as (L & N1 & N2).
  match goal with |- new_ok f a b (bind ?r _) => replace (let* (_, m) := r in Ok (DA true (da_nc a) m)) with (let* m := (let* x := r in Ok (snd x)) in Ok (DA true (da_nc a) m)) by (destruct r as [[? ?]| | |]; done) end.
  apply new_end; [done| |apply HG]. apply wp_bind.
  apply (wp_forZ (fun i '(r, m) => r = i * da_nc a /\ filled (G f (da_vals a) (flatOp a b)) (zlen (da_vals a)) (i * da_nc a) m)); [lia|split; [done|apply filled_0]| |].
  - intros i [r m] Hi [-> Fm]. destruct (ij_some b i 0 Wb) as [y Hy]; [lia|lia|]. pose proof Hy as Hy'. rewrite ij_at in Hy' by lia. rewrite E1, Z.mul_1_r, Z.add_0_r in Hy'. rewrite (rd_ok _ _ _ Hy'). cbn [bind].
    apply wp_bind. eapply wp_mono; [apply (row1_to f (da_vals a) (flatOp a b) HG y (da_nc a) (i * da_nc a) m); [lia|nia|nia| |done]| |done].
    + intros k Hk. rewrite flatOp_at by lia. unfold operand, spread. replace (da_nt b =? da_nt a) with true by lia. replace (da_nc b =? da_nc a) with false by lia. done.
    + intros m' Fm'. cbn [wp]. replace ((i + 1) * da_nc a) with (i * da_nc a + da_nc a) by lia. done.
  - intros [r m] [-> Fm]. cbn [wp snd]. rewrite L at 2. done.
Qed.
Lemma new3_ok : da_nt a <> da_nt b -> da_nc a = da_nc b -> da_nt b = 1 -> new_ok f a b (new3 f a b).
Proof.
  intros En Ec E1. unfold new3. rewrite alloc_wf by done. cbn [bind]. pose proof (da_wf_len a Wa) as (L & N1 & N2).
  match goal with |- new_ok f a b (bind ?r _) => replace (let* (_, m) := r in Ok (DA true (da_nc a) m)) with (let* m := (let* x := r in Ok (snd x)) in Ok (DA true (da_nc a) m)) by (destruct r as [[? ?]| | |]; done) end.
  apply new_end; [done| |apply HG]. apply wp_bind.
  apply (wp_forZ (fun i '(r, m) => r = i * da_nc a /\ filled (G f (da_vals a) (flatOp a b)) (zlen (da_vals a)) (i * da_nc a) m)); [lia|split; [done|apply filled_0]| |].
  - intros i [r m] Hi [-> Fm]. 
    apply wp_bind. eapply wp_mono; [apply (row2_to f (da_vals a) (flatOp a b) HG (da_vals b) 0 (da_nc a) (i * da_nc a) m); [lia|nia|nia| |done]| |done].
    + intros k Hk. rewrite flatOp_at by lia. unfold operand, spread. replace (da_nt b =? da_nt a) with false by lia. replace (da_nc b =? da_nc a) with true by lia. rewrite ij_at by lia. f_equal.
    + intros m' Fm'. cbn [wp]. replace ((i + 1) * da_nc a) with (i * da_nc a + da_nc a) by lia. done.
  - intros [r m] [-> Fm]. cbn [wp snd]. rewrite L at 2. done.
Qed.
End NEW.
Lemma spread_own {A} (a : da A) i j : spread a (da_nt a) (da_nc a) i j = ij a i j.
Proof. unfold spread. rewrite !Z.eqb_refl. done. Qed.
Lemma divSub_ok {A} (f : A -> A -> res A) (a1 a2 : da A) : da_wf a1 -> da_wf a2 -> defined2 f a1 a2 (da_nt a1) (da_nc a1) ->
  (shapes_fit a1 a2 -> builds (da_nt a1) (da_nc a1) (combined_at f a1 a2 (da_nt a1) (da_nc a1)) (divSub f (Some a1) (Some a2))) /\ (~ shapes_fit a1 a2 -> divSub f (Some a1) (Some a2) = Throw).
Proof.
  intros W1 W2 D.
  assert (D' : defined_on f a1 (operand a1 a2)). { intros i j x y Hx Hy. apply (D i j x y); [by rewrite spread_own|done]. }
  assert (X : forall r, new_ok f a1 a2 r -> builds (da_nt a1) (da_nc a1) (combined_at f a1 a2 (da_nt a1) (da_nc a1)) r).
  { intros r (l & E & L & H). exists l. split; [done|]. split; [done|]. intros i j Hi Hj. destruct (H i j Hi Hj) as (v & Hv & x & y & ? & ? & ?). exists v. split; [done|]. exists x, y. by rewrite spread_own. }
  split.
  - intros F. apply X. unfold divSub. destruct (Z.eqb_spec (da_nt a2) (da_nt a1)) as [En|En].
    + destruct (Z.eqb_spec (da_nc a1) (da_nc a2)) as [Ec|Ec]; [rewrite En; by apply new1_ok|]. destruct (Z.eqb_spec (da_nc a2) 1) as [E1|E1]; [by apply new2_ok|]. unfold shapes_fit in F. lia.
    + destruct (Z.eqb_spec (da_nt a2) 1) as [E1|E1]; [|unfold shapes_fit in F; lia]. destruct (Z.eqb_spec (da_nc a1) (da_nc a2)) as [Ec|Ec]; [|unfold shapes_fit in F; lia]. cbn [ifthrow negb]. apply new3_ok; (done || lia).
  - intros F. unfold divSub, ifthrow. unfold shapes_fit in F. destruct (Z.eqb_spec (da_nt a2) (da_nt a1)) as [En|En].
    + destruct (Z.eqb_spec (da_nc a1) (da_nc a2)) as [Ec|Ec]; [exfalso; lia|]. destruct (Z.eqb_spec (da_nc a2) 1) as [E1|E1]; [exfalso; lia|done].
    + destruct (Z.eqb_spec (da_nt a2) 1) as [E1|E1]; [destruct (Z.eqb_spec (da_nc a1) (da_nc a2)) as [Ec|Ec]; [exfalso; lia|done]|]. destruct (Z.eqb_spec (da_nt a1) (da_nt a2)); [lia|done].
Qed.
Lemma mulAdd_ok {A} (f : A -> A -> res A) (a1 a2 : da A) : (forall x y, f x y = f y x) -> da_wf a1 -> da_wf a2 -> let nt := Z.max (da_nt a1) (da_nt a2) in let nc := Z.max (da_nc a1) (da_nc a2) in
  defined2 f a1 a2 nt nc ->
  (shapes_fit2 a1 a2 -> builds nt nc (combined_at f a1 a2 nt nc) (mulAdd f (Some a1) (Some a2))) /\ (~ shapes_fit2 a1 a2 -> mulAdd f (Some a1) (Some a2) = Throw).
Proof.
  intros Cf W1 W2. cbv zeta. intros D. pose proof (da_wf_len a1 W1) as (L1 & N1 & C1). pose proof (da_wf_len a2 W2) as (L2 & N2 & C2).
  assert (XL : forall r, da_nt a2 <= da_nt a1 -> da_nc a2 <= da_nc a1 -> new_ok f a1 a2 r -> builds (Z.max (da_nt a1) (da_nt a2)) (Z.max (da_nc a1) (da_nc a2)) (combined_at f a1 a2 (Z.max (da_nt a1) (da_nt a2)) (Z.max (da_nc a1) (da_nc a2))) r).
  { intros r B1 B2 (l & E & L & H). rewrite !Z.max_l by done. exists l. split; [done|]. split; [done|]. intros i j Hi Hj. destruct (H i j Hi Hj) as (v & Hv & x & y & ? & ? & ?). exists v. split; [done|]. exists x, y. by rewrite spread_own. }
  assert (XR : forall r, da_nt a1 <= da_nt a2 -> da_nc a1 <= da_nc a2 -> new_ok f a2 a1 r -> builds (Z.max (da_nt a1) (da_nt a2)) (Z.max (da_nc a1) (da_nc a2)) (combined_at f a1 a2 (Z.max (da_nt a1) (da_nt a2)) (Z.max (da_nc a1) (da_nc a2))) r).
  { intros r B1 B2 (l & E & L & H). rewrite !Z.max_r by done. exists l. split; [done|]. split; [done|]. intros i j Hi Hj. destruct (H i j Hi Hj) as (v & Hv & x & y & ? & ? & ?). exists v. split; [done|]. exists y, x. rewrite spread_own, Cf. done. }
  assert (DL : da_nt a2 <= da_nt a1 -> da_nc a2 <= da_nc a1 -> defined_on f a1 (operand a1 a2)). { intros B1 B2 i j x y Hx Hy. rewrite !Z.max_l in D by done. apply (D i j x y); [by rewrite spread_own|done]. }
  assert (DR : da_nt a1 <= da_nt a2 -> da_nc a1 <= da_nc a2 -> defined_on f a2 (operand a2 a1)). { intros B1 B2 i j x y Hx Hy. rewrite !Z.max_r in D by done. rewrite Cf. apply (D i j y x); [done|by rewrite spread_own]. }
  unfold mulAdd, shapes_fit2. destruct (Z.eqb_spec (da_nt a1) (da_nt a2)) as [En|En].
  - destruct (Z.eqb_spec (da_nc a1) (da_nc a2)) as [Ec|Ec]; [split; [|lia]; intros _; apply XL; [lia|lia|]; apply new1_ok; try done; [unfold shapes_fit; lia|apply DL; lia]|].
    destruct (Z.ltb_spec (da_nc a2) (da_nc a1)).
    + destruct (Z.eqb_spec (da_nc a2) 1); [|split; [lia|done]]. split; [|lia]. intros _. apply XL; [lia|lia|]. apply new2_ok; try done; [unfold shapes_fit; lia|apply DL; lia].
    + destruct (Z.eqb_spec (da_nc a1) 1); [|split; [lia|done]]. split; [|lia]. intros _. apply XR; [lia|lia|]. rewrite En. apply new2_ok; try done; try lia; [unfold shapes_fit; lia|apply DR; lia].
  - destruct ((da_nt a1 =? 1) && (1 <? da_nt a2) || (1 <? da_nt a1) && (da_nt a2 =? 1)) eqn:Et; [|split; [lia|done]].
    destruct (Z.eqb_spec (da_nc a1) (da_nc a2)) as [Ec|Ec]; [|split; [lia|done]]. split; [|lia]. intros _. destruct (Z.ltb_spec (da_nt a2) (da_nt a1)).
    + apply XL; [lia|lia|]. rewrite Z.max_l by lia. apply new3_ok; try done; try lia; [unfold shapes_fit; lia|apply DL; lia].
    + apply XR; [lia|lia|]. rewrite Z.max_r by lia. rewrite Ec. apply new3_ok; try done; try lia; [unfold shapes_fit; lia|apply DR; lia].
Qed.
Lemma Pow_ok (a1 a2 : da Z) : da_wf a1 -> da_wf a2 ->
  (da_nt a1 = da_nt a2 /\ da_nc a1 = 1 /\ da_nc a2 = 1 /\ (forall e, e ∈ da_vals a2 -> 0 <= e) -> builds (da_nt a1) 1 (fun i j v => exists x e, ij a1 i 0 = Some x /\ ij a2 i 0 = Some e /\ v = x ^ e) (Pow (Some a1) (Some a2))) /\
  (~ (da_nt a1 = da_nt a2 /\ da_nc a1 = 1 /\ da_nc a2 = 1 /\ (forall e, e ∈ da_vals a2 -> 0 <= e)) -> Pow (Some a1) (Some a2) = Throw).
Proof.
  intros W1 W2. pose proof (da_wf_len a1 W1) as (L1 & N1 & C1). pose proof (da_wf_len a2 W2) as (L2 & N2 & C2). unfold Pow, ifthrow.
  destruct (Z.eqb_spec (da_nt a1) (da_nt a2)) as [E1|E1]; [cbn [negb]|split; [lia|done]]. destruct (Z.eqb_spec (da_nc a1) 1) as [E2|E2]; [cbn [negb orb]|split; [lia|done]]. destruct (Z.eqb_spec (da_nc a2) 1) as [E3|E3]; [cbn [negb]|split; [lia|done]].
  assert (V1 : zlen (da_vals a1) = da_nt a1) by lia. assert (V2 : zlen (da_vals a2) = da_nt a1) by lia.
  pose proof (alloc_wf a1 W1) as Al. rewrite E2 in Al. rewrite Al. clear Al. cbn [bind]. rewrite V1.
  set (g := fun c => match da_vals a1 @ c, da_vals a2 @ c with Some x, Some e => Some (x ^ e) | _, _ => None end).
  match goal with |- context[let* b := ?r in Ok (DA true 1 b)] => assert (H : wp r (fun b => filled g (da_nt a1) (da_nt a1) b /\ forall c e, c < da_nt a1 -> da_vals a2 @ c = Some e -> 0 <= e) (exists c e, da_vals a2 @ c = Some e /\ e < 0)) end.
  { apply (wp_forZ (fun k b => filled g (da_nt a1) k b /\ forall c e, c < k -> da_vals a2 @ c = Some e -> 0 <= e)); [done|split; [apply filled_0|intros c e Hc Q; apply zlook_Some_lt in Q; lia]| |done].
    intros i b Hi [Fb Hb]. destruct (zlook_lt (da_vals a1) i) as [x Hx]; [lia|]. destruct (zlook_lt (da_vals a2) i) as [e He]; [lia|]. rewrite (rd_ok _ _ _ Hx), (rd_ok _ _ _ He). cbn [bind]. destruct (Z.ltb_spec e 0); [cbn; eauto|].
    eapply wp_mono; [apply (filled_step g (da_nt a1) i b (power x e)); [done|lia|unfold g; rewrite Hx, He, power_ok by lia; done]| |done].
    intros b' Fb'. split; [done|]. intros c e' Hc Q. destruct (decide (c = i)) as [->|]; [congruence|]. eapply Hb; [|done]. lia. }
  split.
  - intros (_ & _ & _ & P). match goal with |- context[let* b := ?r in Ok (DA true 1 b)] => destruct r as [b| | |] end; cbn [wp] in H; try done.
    + destruct H as [Fb _]. apply filled_all in Fb as (l & -> & Ll & Hl). exists l. split; [done|]. split; [lia|]. intros i j Hi Hj. replace (i * 1 + j) with i by lia. rewrite Hl by lia. unfold g.
      destruct (zlook_lt (da_vals a1) i) as [x Hx]; [lia|]. destruct (zlook_lt (da_vals a2) i) as [e He]; [lia|]. rewrite Hx, He. eexists. split; [done|]. exists x, e. rewrite !ij_at by lia. rewrite E2, E3, Z.mul_1_r, Z.add_0_r. done.
    + destruct H as (c & e & Q & ?). apply elem_of_zlook_1 in Q. apply P in Q. lia.
  - intros P. match goal with |- context[let* b := ?r in Ok (DA true 1 b)] => destruct r as [b| | |] end; cbn [wp] in H; try done. exfalso. apply P. split; [done|]. split; [done|]. split; [done|]. intros e [c Hc]%elem_of_zlook. destruct H as [_ H]. eapply H; [|done]. apply zlook_Some_lt in Hc. lia.
Qed.
Lemma mapTo_ok (h : Z -> Z) (d : da Z) : da_wf d -> (da_alloc d = true -> builds (da_nt d) (da_nc d) (fun i j v => exists x, ij d i j = Some x /\ v = h x) (mapTo h d)) /\ (da_alloc d = false -> mapTo h d = Throw).
Proof.
  intros W. pose proof (da_wf_len d W) as (L & N1 & N2). unfold mapTo, ifthrow. split; intros ->; [|done]. cbn [negb]. rewrite alloc_wf by done. cbn [bind]. rewrite <- L.
  match goal with |- builds _ _ _ (let* b := ?r in _) => assert (H : wp r (filled (fun c => h <$> da_vals d @ c) (zlen (da_vals d)) (zlen (da_vals d))) False) end.
  { apply (wp_forZ (fun k b => filled (fun c => h <$> da_vals d @ c) (zlen (da_vals d)) k b)); [lia|apply filled_0| |done]. intros i b Hi Fb. destruct (zlook_lt (da_vals d) i) as [x Hx]; [lia|]. rewrite (rd_ok _ _ _ Hx). cbn [bind]. apply filled_step; [done|lia|by rewrite Hx]. }
  apply wp_ok in H as (b & -> & Fb). apply filled_all in Fb as (l & -> & Ll & Hl). exists l. split; [done|]. split; [lia|]. intros i j Hi Hj. rewrite Hl by nia. rewrite ij_at by lia. destruct (zlook_lt (da_vals d) (i * da_nc d + j)) as [x Hx]; [nia|]. rewrite Hx. cbn. eauto.
Qed.
Lemma sumPerTuple_ok (d : da Z) : da_wf d -> (da_alloc d = true -> builds (da_nt d) 1 (fun i j v => tuple_sum d i v) (sumPerTuple d)) /\ (da_alloc d = false -> sumPerTuple d = Throw).
Proof.
  intros W. pose proof (da_wf_len d W) as (L & N1 & N2). unfold sumPerTuple, ifthrow. split; intros ->; [|done]. cbn [negb]. unfold alloc at 1, ubif. replace ((da_nt d <? 0) || (1 <? 0)) with false by lia. cbn [bind].
  set (row := fun i => sub (da_vals d) (i * da_nc d) (i * da_nc d + da_nc d)).
  match goal with |- builds _ _ _ (let* b := ?r in _) => assert (H : wp r (filled (fun c => Some (foldr Z.add 0 (row c))) (da_nt d) (da_nt d)) False) end.
  { apply (wp_forZ (fun k b => filled (fun c => Some (foldr Z.add 0 (row c))) (da_nt d) k b)); [lia|rewrite Z.mul_1_l; apply filled_0| |done]. intros i b Hi Fb. apply wp_bind.
    apply (wp_forZ (fun j t => t = foldr Z.add 0 (sub (da_vals d) (i * da_nc d) (i * da_nc d + j)))); [done|rewrite Z.add_0_r, sub_empty by lia; done| |].
    - intros j t Hj ->. destruct (zlook_lt (da_vals d) (i * da_nc d + j)) as [x Hx]; [nia|]. rewrite (rd_ok _ _ _ Hx). cbn [bind wp]. rewrite Z.add_assoc, (sub_snoc _ _ (i * da_nc d + j) x) by (nia || done). rewrite foldr_app. cbn [foldr].
      assert (FS : forall l y, foldr Z.add y l = foldr Z.add 0 l + y) by (induction l as [|z l IH]; intros y; cbn [foldr]; [lia|rewrite IH; lia]). rewrite (FS _ (x + 0)). lia.
    - intros t ->. apply filled_step; [done|lia|done]. }
  apply wp_ok in H as (b & -> & Fb). apply filled_all in Fb as (l & -> & Ll & Hl). exists l. split; [done|]. split; [lia|]. intros i j Hi Hj. replace (i * 1 + j) with i by lia. rewrite Hl by lia. eexists. split; [done|].
  exists (row i). split; [unfold row; rewrite zlen_sub; nia|]. split; [|done]. intros k Hk. rewrite ij_at by lia. unfold row. rewrite zlook_sub by nia. done.
Qed.
(** ** What fails. *)
Lemma modulus_component_refuted : ~ forall d a : da Z, da_wf d -> da_wf a -> da_alloc d = true -> da_alloc a = true -> shapes_fit d a -> fst (modulusEqual d (Other a)) <> Throw.
Proof. intros H. apply (H (DA true 2 [7; 8]) (DA true 1 [5])); try done; [split; [done|]; exists 1; done|split; [done|]; exists 1; done|left; split; [done|]; by right]. Qed.
Lemma modulus_safe_refuted : ~ forall d a : da Z, da_wf d -> da_wf a -> (forall x, x ∈ da_vals a -> x <> 0) -> fst (modulusEqual d (Other a)) <> UB.
Proof. intros H. apply (H (DA true 2 [7; 8; 9; 10]) (DA true 1 [5])); try done; [split; [done|]; exists 2; done|split; [done|]; exists 1; done|]. intros x ->%elem_of_list_singleton. done. Qed.
Lemma modulus_shape_refuted : ~ forall d a : da Z, da_wf d -> da_wf a -> ~ shapes_fit d a -> fst (modulusEqual d (Other a)) = Throw.
Proof. intros H. specialize (H (DA true 1 [7; 8]) (DA true 2 [5; 3])). assert (Q : fst (modulusEqual (DA true 1 [7; 8]) (Other (DA true 2 [5; 3]))) = Ok tt) by (vm_compute; done). rewrite Q in H. assert (Ok tt = Throw); [|done]. apply H; [split; [done|]; exists 2; done|split; [done|]; exists 1; done|]. intros [[E _]|[_ E]]; vm_compute in E; done. Qed.
Lemma add_empty_refuted : ~ forall a1 a2 : da Z, da_wf a1 -> da_wf a2 -> shapes_fit a1 a2 -> Add (Some a1) (Some a2) <> Throw.
Proof. intros H. apply (H (DA true 1 []) (DA true 1 [5])); try done; [split; [done|]; exists 0; done|split; [done|]; exists 1; done|right; done]. Qed.
(** ** The operations on integers. *)
Lemma total_on (f : Z -> Z -> Z) (d : da Z) src : defined_on (fun x y => Ok (f x y)) d src.
Proof. intros i j x y _ _. eauto. Qed.
Lemma total2 (f : Z -> Z -> Z) (a1 a2 : da Z) nt nc : defined2 (fun x y => Ok (f x y)) a1 a2 nt nc.
Proof. intros i j x y _ _. eauto. Qed.
Lemma spread_in (a : da Z) nt nc i j y : spread a nt nc i j = Some y -> y ∈ da_vals a.
Proof. unfold spread, ij. destruct (_ && _); [|done]. apply elem_of_zlook_1. Qed.
Lemma cdiv_on (d a : da Z) : no_zero a -> defined_on cdiv d (operand d a).
Proof. intros H i j x y _ Hy. apply spread_in, H in Hy. unfold cdiv. replace (y =? 0) with false by lia. eauto. Qed.
Lemma cmod_on (d a : da Z) : no_zero a -> defined_on cmod d (operand d a).
Proof. intros H i j x y _ Hy. apply spread_in, H in Hy. unfold cmod. replace (y =? 0) with false by lia. eauto. Qed.
Lemma cdiv2 (a1 a2 : da Z) nt nc : no_zero a2 -> defined2 cdiv a1 a2 nt nc.
Proof. intros H i j x y _ Hy. apply spread_in, H in Hy. unfold cdiv. replace (y =? 0) with false by lia. eauto. Qed.
Lemma cmod2 (a1 a2 : da Z) nt nc : no_zero a2 -> defined2 cmod a1 a2 nt nc.
Proof. intros H i j x y _ Hy. apply spread_in, H in Hy. unfold cmod. replace (y =? 0) with false by lia. eauto. Qed.
Lemma in_place_ext {A} good (f g : A -> A -> res A) (d : da A) src o : (forall x y v, f x y = Ok v -> g x y = Ok v) -> in_place good f d src o -> in_place good g d src o.
Proof. intros E [H1 H2]. split; [|done]. intros K. destruct (H1 K) as (l & E1 & E2 & E3). exists l. split; [done|]. split; [done|]. intros i j x Hx. destruct (E3 i j x Hx) as (y & v & ? & ? & ?). exists y, v. eauto. Qed.
Lemma builds_ext {A} nt nc (P Q : Z -> Z -> A -> Prop) r : (forall i j v, P i j v -> Q i j v) -> builds nt nc P r -> builds nt nc Q r.
Proof. intros E (l & H1 & H2 & H3). exists l. split; [done|]. split; [done|]. intros i j Hi Hj. destruct (H3 i j Hi Hj) as (v & ? & ?). eauto. Qed.
Lemma divide_ok (d a : da Z) : da_wf d -> da_wf a -> no_zero a -> in_place (da_alloc d = true /\ da_alloc a = true /\ shapes_fit d a) (fun x y => Ok (Z.quot x y)) d (operand d a) (divideEqual d (Other a)).
Proof. intros. eapply in_place_ext; [|apply something_ok; try done; by apply cdiv_on]. intros x y v. unfold cdiv. destruct (y =? 0); done. Qed.
Lemma modulus_partial (d a : da Z) : da_wf d -> da_wf a -> no_zero a -> (da_nc a = da_nc d \/ da_nt a <> 1 \/ da_nt d = 1) ->
  in_place (da_alloc d = true /\ da_alloc a = true /\ shapes_fit d a /\ da_nc a = da_nc d) (fun x y => Ok (Z.rem x y)) d (operand d a) (modulusEqual d (Other a)).
Proof. intros. eapply in_place_ext; [|apply modulus_ok; try done; by apply cmod_on]. intros x y v. unfold cmod. destruct (y =? 0); done. Qed.
Lemma Divide_ok (a1 a2 : da Z) : da_wf a1 -> da_wf a2 -> no_zero a2 ->
  (shapes_fit a1 a2 -> builds (da_nt a1) (da_nc a1) (combined_at (fun x y => Ok (Z.quot x y)) a1 a2 (da_nt a1) (da_nc a1)) (Divide (Some a1) (Some a2))) /\ (~ shapes_fit a1 a2 -> Divide (Some a1) (Some a2) = Throw).
Proof. intros. destruct (divSub_ok cdiv a1 a2) as [H1' H2']; try done; [by apply cdiv2|]. split; [|done]. intros F. eapply builds_ext; [|by apply H1']. intros i j v (x & y & ? & ? & E). exists x, y. unfold cdiv in E. destruct (y =? 0); done. Qed.
Lemma Modulus_ok (a1 a2 : da Z) : da_wf a1 -> da_wf a2 -> no_zero a2 ->
  (shapes_fit a1 a2 -> builds (da_nt a1) (da_nc a1) (combined_at (fun x y => Ok (Z.rem x y)) a1 a2 (da_nt a1) (da_nc a1)) (Modulus (Some a1) (Some a2))) /\ (~ shapes_fit a1 a2 -> Modulus (Some a1) (Some a2) = Throw).
Proof. intros. destruct (divSub_ok cmod a1 a2) as [H1' H2']; try done; [by apply cmod2|]. split; [|done]. intros F. eapply builds_ext; [|by apply H1']. intros i j v (x & y & ? & ? & E). exists x, y. unfold cmod in E. destruct (y =? 0); done. Qed.
Lemma add_ok (d a : da Z) : da_wf d -> da_wf a -> in_place (da_alloc d = true /\ da_alloc a = true /\ shapes_fit d a) (fun x y => Ok (x + y)) d (operand d a) (addEqual d (Other a)).
Proof. intros. apply something_ok; try done. apply total_on. Qed.
Lemma substract_ok (d a : da Z) : da_wf d -> da_wf a -> in_place (da_alloc d = true /\ da_alloc a = true /\ shapes_fit d a) (fun x y => Ok (x - y)) d (operand d a) (substractEqual d (Other a)).
Proof. intros. apply something_ok; try done. apply total_on. Qed.
Lemma multiply_ok (d a : da Z) : da_wf d -> da_wf a -> in_place (da_alloc d = true /\ da_alloc a = true /\ shapes_fit d a) (fun x y => Ok (x * y)) d (operand d a) (multiplyEqual d (Other a)).
Proof. intros. apply something_ok; try done. apply total_on. Qed.
Lemma Substract_ok (a1 a2 : da Z) : da_wf a1 -> da_wf a2 ->
  (shapes_fit a1 a2 -> builds (da_nt a1) (da_nc a1) (combined_at (fun x y => Ok (x - y)) a1 a2 (da_nt a1) (da_nc a1)) (Substract (Some a1) (Some a2))) /\ (~ shapes_fit a1 a2 -> Substract (Some a1) (Some a2) = Throw).
Proof. intros. apply divSub_ok; try done. apply total2. Qed.
Lemma Add_ok (a1 a2 : da Z) : da_wf a1 -> da_wf a2 -> let nt := Z.max (da_nt a1) (da_nt a2) in let nc := Z.max (da_nc a1) (da_nc a2) in
  (shapes_fit2 a1 a2 -> builds nt nc (combined_at (fun x y => Ok (x + y)) a1 a2 nt nc) (Add (Some a1) (Some a2))) /\ (~ shapes_fit2 a1 a2 -> Add (Some a1) (Some a2) = Throw).
Proof. intros. apply mulAdd_ok; try done; [intros; f_equal; lia|]. apply total2. Qed.
Lemma Multiply_ok (a1 a2 : da Z) : da_wf a1 -> da_wf a2 -> let nt := Z.max (da_nt a1) (da_nt a2) in let nc := Z.max (da_nc a1) (da_nc a2) in
  (shapes_fit2 a1 a2 -> builds nt nc (combined_at (fun x y => Ok (x * y)) a1 a2 nt nc) (Multiply (Some a1) (Some a2))) /\ (~ shapes_fit2 a1 a2 -> Multiply (Some a1) (Some a2) = Throw).
Proof. intros. apply mulAdd_ok; try done; [intros; f_equal; lia|]. apply total2. Qed.
Lemma itself_ok (d : da Z) : da_wf d ->
  in_place (da_alloc d = true) (fun x y => Ok (x + y)) d (ij d) (addEqual d Self) /\ in_place (da_alloc d = true) (fun x y => Ok (x - y)) d (ij d) (substractEqual d Self) /\ in_place (da_alloc d = true) (fun x y => Ok (x * y)) d (ij d) (multiplyEqual d Self) /\
  (no_zero d -> in_place (da_alloc d = true) (fun x y => Ok (Z.quot x y)) d (ij d) (divideEqual d Self) /\ in_place (da_alloc d = true) (fun x y => Ok (Z.rem x y)) d (ij d) (modulusEqual d Self)).
Proof.
  intros W. split; [apply something_self; [done|apply total_on]|]. split; [apply something_self; [done|apply total_on]|]. split; [apply something_self; [done|apply total_on]|]. intros NZ.
  assert (D : forall i j y, ij d i j = Some y -> y <> 0). { intros i j y Hy. apply NZ. unfold ij in Hy. destruct (_ && _); [|done]. by apply elem_of_zlook_1 in Hy. }
  split.
  - eapply in_place_ext; [|apply something_self; [done|]]. { intros x y v. unfold cdiv. destruct (y =? 0); done. } intros i j x y _ Hy. apply D in Hy. unfold cdiv. replace (y =? 0) with false by lia. eauto.
  - eapply in_place_ext; [|apply modulus_self; [done|]]. { intros x y v. unfold cmod. destruct (y =? 0); done. } intros i j x y _ Hy. apply D in Hy. unfold cmod. replace (y =? 0) with false by lia. eauto.
Qed.
Lemma arith_null (d : da Z) (o : opt Z) : addEqual d Null = (Throw, d) /\ substractEqual d Null = (Throw, d) /\ multiplyEqual d Null = (Throw, d) /\ divideEqual d Null = (Throw, d) /\ modulusEqual d Null = (Throw, d) /\ powEqual d Null = (Throw, d).
Proof. done. Qed.
Lemma new_null (o : opt Z) : Add None o = Throw /\ Add o None = Throw /\ Substract None o = Throw /\ Substract o None = Throw /\ Multiply None o = Throw /\ Multiply o None = Throw /\ Divide None o = Throw /\ Divide o None = Throw /\
  Modulus None o = Throw /\ Modulus o None = Throw /\ Pow None o = Throw /\ Pow o None = Throw.
Proof. destruct o; done. Qed.
