From Coq Require Import ZifyBool ZifyNat.
From Verif Require Import Base DataArray ArrLib SetModel ArithModel ArithSpec.

Section INPLACE.
Context {A : Type} (f : A -> A -> res A) (l0 : list A) (σ : Z -> option A).
Definition G (c : Z) : option A := match l0 @ c, σ c with Some x, Some y => match f x y with Ok v => Some v | _ => None end | _, _ => None end.
Definition upto (n : Z) (l : list A) : Prop := zlen l = zlen l0 /\ forall c, l @ c = if (0 <=? c) && (c <? n) then G c else l0 @ c.
Lemma upto_0 : upto 0 l0.
Proof. split; [done|]. intros c. replace ((0 <=? c) && (c <? 0)) with false by lia. done. Qed.
Lemma cell_step (k : Z) l (y : A) (body : A -> res A) : upto k l -> 0 <= k < zlen l0 -> (exists v, G k = Some v) -> σ k = Some y ->
  (forall x, body x = f x y) -> wp (let* x := rd l k in let* v := body x in wr l k v) (upto (k + 1)) False.
Proof.
  intros [L U] Hk [v Hv] Hy Hb. destruct (zlook_lt l0 k) as [x Hx]; [lia|]. assert (E : l @ k = Some x). { rewrite U. replace (_ && _) with false by lia. done. }
  rewrite (rd_ok _ _ _ E). cbn [bind]. rewrite Hb. assert (Hf : f x y = Ok v). { unfold G in Hv. rewrite Hx, Hy in Hv. destruct (f x y); congruence. } rewrite Hf. cbn [bind].
  rewrite wr_ok by lia. cbn [wp]. split; [rewrite zlen_zset; done|]. intros c. rewrite zlook_zset by lia. destruct (Z.eqb_spec c k) as [->|N].
  - replace (_ && _) with true by lia. done.
  - rewrite U. replace ((0 <=? c) && (c <? k + 1)) with ((0 <=? c) && (c <? k)) by lia. done.
Qed.
Lemma t2_row s n p q l : 0 <= n -> 0 <= p -> p + n <= zlen l0 -> (forall k l, 0 <= k < n -> upto (p + k) l -> srcVals s l @ (q + k) = σ (p + k)) -> (forall c, 0 <= c < zlen l0 -> exists v, G c = Some v) ->
  upto p l -> wp (transform2 f s n p q l) (upto (p + n)) False.
Proof.
  intros Hn Hp Hl Hs HG U. unfold transform2. apply (wp_forZ (fun k l => upto (p + k) l)); [done|by rewrite Z.add_0_r| |done].
  intros k m Hk Um. destruct (HG (p + k) ltac:(lia)) as [v Hv]. pose proof (Hs k m Hk Um) as Hy. destruct (σ (p + k)) as [y|] eqn:Ey; [|unfold G in Hv; rewrite Ey in Hv; destruct (l0 @ (p + k)); done].
  replace (p + (k + 1)) with (p + k + 1) by lia. rewrite (rd_ok _ _ _ Hy). apply (cell_step (p + k) m y (fun x => f x y)); eauto; lia.
Qed.
Lemma t1_row y n p l : 0 <= n -> 0 <= p -> p + n <= zlen l0 -> (forall k, 0 <= k < n -> σ (p + k) = Some y) -> (forall c, 0 <= c < zlen l0 -> exists v, G c = Some v) ->
  upto p l -> wp (transform1 f y n p l) (upto (p + n)) False.
Proof.
  intros Hn Hp Hl Hs HG U. unfold transform1. apply (wp_forZ (fun k l => upto (p + k) l)); [done|by rewrite Z.add_0_r| |done].
  intros k m Hk Um. replace (p + (k + 1)) with (p + k + 1) by lia. apply (cell_step (p + k) m y (fun x => f x y)); eauto; [lia|]. apply HG. lia.
Qed.
End INPLACE.

Lemma ij_in {A} (d : da A) i j x : da_wf d -> ij d i j = Some x -> 0 <= i < da_nt d /\ 0 <= j < da_nc d /\ da_vals d @ (i * da_nc d + j) = Some x.
Proof.
  intros W H. pose proof (da_wf_len d W) as (L & ? & ?). unfold ij in H. destruct ((0 <=? i) && (0 <=? j) && (j <? da_nc d)) eqn:E; [|done]. apply zlook_Some_lt in H as B. split; [|split; [lia|done]]. nia.
Qed.
Lemma ij_at {A} (d : da A) i j : 0 <= i -> 0 <= j < da_nc d -> ij d i j = da_vals d @ (i * da_nc d + j).
Proof. intros Hi Hj. unfold ij. replace (_ && _) with true by lia. done. Qed.
Lemma cell_split nc c : 0 < nc -> 0 <= c -> c = c / nc * nc + c mod nc /\ 0 <= c mod nc < nc /\ 0 <= c / nc.
Proof. intros H Hc. pose proof (Z.div_mod c nc). pose proof (Z.mod_pos_bound c nc). pose proof (Z.div_pos c nc). lia. Qed.
Lemma cell_div nc i j : 0 <= j < nc -> (i * nc + j) / nc = i /\ (i * nc + j) mod nc = j.
Proof. intros H. rewrite Z.add_comm. rewrite Z.div_add, Z.mod_add, Z.div_small, Z.mod_small by lia. lia. Qed.

(** From the state at the end of the loops to the specification. *)
Lemma combined {A} (f : A -> A -> res A) (d : da A) (src : Z -> Z -> option A) σ l : da_wf d ->
  (forall i j, 0 <= i < da_nt d -> 0 <= j < da_nc d -> src i j = σ (i * da_nc d + j)) -> (forall c, 0 <= c < zlen (da_vals d) -> exists v, G f (da_vals d) σ c = Some v) ->
  upto f (da_vals d) σ (zlen (da_vals d)) l -> combines f d src l.
Proof.
  intros W Hs HG [L U]. split; [done|]. intros i j x H. apply (ij_in d i j x W) in H as (Hi & Hj & Hx). pose proof (zlook_Some_lt _ _ _ Hx) as B. destruct (HG _ B) as [v Hv]. rewrite Hs by done.
  rewrite U. replace (_ && _) with true by lia. rewrite Hv. unfold G in Hv. rewrite Hx in Hv. destruct (σ _) as [y|]; [|done]. exists y, v. destruct (f x y) eqn:E; try done. injection Hv as ->. done.
Qed.
Lemma all_defined {A} (f : A -> A -> res A) (d : da A) (src : Z -> Z -> option A) σ : da_wf d ->
  (forall i j, 0 <= i < da_nt d -> 0 <= j < da_nc d -> src i j = σ (i * da_nc d + j) /\ exists y, src i j = Some y) -> defined_on f d src ->
  forall c, 0 <= c < zlen (da_vals d) -> exists v, G f (da_vals d) σ c = Some v.
Proof.
  intros W Hs Hd c Hc. pose proof (da_wf_len d W) as (L & N1 & N2). assert (0 < da_nc d) by nia. destruct (cell_split (da_nc d) c) as (E & B1 & B2); [done|lia|]. assert (c / da_nc d < da_nt d) by nia.
  destruct (Hs (c / da_nc d) (c mod da_nc d)) as [H1 [y H2]]; [lia|done|]. destruct (zlook_lt (da_vals d) c) as [x Hx]; [done|]. destruct (Hd (c / da_nc d) (c mod da_nc d) x y) as [v Hv]; [by rewrite ij_at, <- E by lia|done|].
  exists v. unfold G. rewrite Hx. rewrite <- E in H1. rewrite <- H1, H2, Hv. done.
Qed.
(** The operand of a flat position. *)
Definition flatOp {A} (d a : da A) (c : Z) : option A := operand d a (c / da_nc d) (c mod da_nc d).
Lemma flatOp_at {A} (d a : da A) i j : 0 <= j < da_nc d -> flatOp d a (i * da_nc d + j) = operand d a i j.
Proof. intros H. unfold flatOp. destruct (cell_div (da_nc d) i j H) as [-> ->]. done. Qed.
Lemma ij_some {A} (a : da A) i j : da_wf a -> 0 <= i < da_nt a -> 0 <= j < da_nc a -> exists y, ij a i j = Some y.
Proof. intros W Hi Hj. pose proof (da_wf_len a W) as (L & ? & ?). rewrite ij_at by lia. apply zlook_lt. nia. Qed.
Lemma operand_some {A} (d a : da A) i j : da_wf a -> shapes_fit d a -> 0 <= i < da_nt d -> 0 <= j < da_nc d -> exists y, operand d a i j = Some y.
Proof. intros W F Hi Hj. unfold operand, spread, shapes_fit in *. destruct (Z.eqb_spec (da_nt a) (da_nt d)); destruct (Z.eqb_spec (da_nc a) (da_nc d)); apply ij_some; try done; lia. Qed.

Lemma leave_ok {A} (d : da A) r (Q : list A -> Prop) : wp r Q False -> exists l, leave d r = (Ok tt, DA (da_alloc d) (da_nc d) l) /\ Q l.
Proof. intros H. apply wp_ok in H as (l & -> & H). exists l. done. Qed.
Lemma something_ok {A} (f : A -> A -> res A) (d a : da A) : da_wf d -> da_wf a -> defined_on f d (operand d a) ->
  in_place (da_alloc d = true /\ da_alloc a = true /\ shapes_fit d a) f d (operand d a) (somethingEqual f d (Other a)).
Proof.
  intros Wd Wa Hd. pose proof (da_wf_len d Wd) as (L & N1 & N2). pose proof (da_wf_len a Wa) as (La & M1 & M2). unfold somethingEqual. cbv zeta. cbn [isNull srcArr]. unfold checked.
  destruct (da_alloc d) eqn:Ad; [|split; [intros [? _]; done|done]]. destruct (da_alloc a) eqn:Aa; [|split; [intros (_ & ? & _); done|done]]. cbn [negb].
  assert (Sel : forall (r : res (list A)), shapes_fit d a -> ((forall c, 0 <= c < zlen (da_vals d) -> exists v, G f (da_vals d) (flatOp d a) c = Some v) -> wp r (upto f (da_vals d) (flatOp d a) (zlen (da_vals d))) False) ->
    in_place (true = true /\ true = true /\ shapes_fit d a) f d (operand d a) (leave d r)).
  { intros r F Hr. split; [|tauto]. intros _.
    assert (HG : forall c, 0 <= c < zlen (da_vals d) -> exists v, G f (da_vals d) (flatOp d a) c = Some v).
    { eapply (all_defined f d (operand d a)); [done| |done]. intros i j Hi Hj. split; [by rewrite flatOp_at|by apply operand_some]. }
    destruct (leave_ok d r _ (Hr HG)) as (l & E & U). exists l. split; [exact E|]. eapply combined; [done| |done|done]. intros i j Hi Hj. by rewrite flatOp_at. }
  assert (Op : forall i j, 0 <= i < da_nt d -> 0 <= j < da_nc d -> flatOp d a (i * da_nc d + j) = operand d a i j) by (intros; by apply flatOp_at).
  destruct (Z.eqb_spec (da_nt d) (da_nt a)) as [En|En].
  - destruct (Z.eqb_spec (da_nc d) (da_nc a)) as [Ec|Ec].
    + apply Sel; [unfold shapes_fit; lia|]. intros HG. pose proof (t2_row f (da_vals d) (flatOp d a) (Other a) (zlen (da_vals d)) 0 0 (da_vals d)) as H. rewrite !Z.add_0_l in H. apply H; try lia; [|done|apply upto_0]. clear H.
      intros k l Hk _. cbn [srcVals]. rewrite !Z.add_0_l. assert (0 < da_nc d) by nia. destruct (cell_split (da_nc d) k) as (E & B1 & B2); [done|lia|]. unfold flatOp, operand, spread. replace (da_nt a =? da_nt d) with true by lia. replace (da_nc a =? da_nc d) with true by lia.
      rewrite ij_at by lia. rewrite <- Ec, <- E. done.
    + destruct (Z.eqb_spec (da_nc a) 1) as [E1|E1]; [|split; [unfold shapes_fit; lia|done]]. apply Sel; [unfold shapes_fit; lia|]. intros HG. rewrite L.
      apply (wp_forZ (fun i l => upto f (da_vals d) (flatOp d a) (i * da_nc d) l)); [lia|apply upto_0| |done].
      intros i l Hi U. cbn [srcVals]. destruct (ij_some a i 0 Wa) as [y Hy]; [lia|lia|]. pose proof Hy as Hy'. rewrite ij_at in Hy' by lia. rewrite E1, Z.mul_1_r, Z.add_0_r in Hy'. rewrite (rd_ok _ _ _ Hy'). cbn [bind].
      replace ((i + 1) * da_nc d) with (i * da_nc d + da_nc d) by lia. apply t1_row; try done; try nia. intros k Hk. rewrite Op by lia. unfold operand, spread. replace (da_nt a =? da_nt d) with true by lia. replace (da_nc a =? da_nc d) with false by lia. done.
  - destruct (Z.eqb_spec (da_nt a) 1) as [E1|E1]; [|split; [unfold shapes_fit; lia|done]]. destruct (Z.eqb_spec (da_nc a) (da_nc d)) as [Ec|Ec]; [|split; [unfold shapes_fit; lia|done]].
    apply Sel; [unfold shapes_fit; lia|]. intros HG. rewrite L.
    apply (wp_forZ (fun i l => upto f (da_vals d) (flatOp d a) (i * da_nc d) l)); [lia|apply upto_0| |done].
    intros i l Hi U. replace ((i + 1) * da_nc d) with (i * da_nc d + da_nc d) by lia. apply t2_row; try done; try nia. intros k m Hk _. cbn [srcVals]. rewrite Op by lia. unfold operand, spread. replace (da_nt a =? da_nt d) with false by lia. replace (da_nc a =? da_nc d) with true by lia.
    rewrite ij_at by lia. f_equal.
Qed.
Lemma something_self {A} (f : A -> A -> res A) (d : da A) : da_wf d -> defined_on f d (ij d) -> in_place (da_alloc d = true) f d (ij d) (somethingEqual f d Self).
Proof.
  intros Wd Hd. pose proof (da_wf_len d Wd) as (L & N1 & N2). unfold somethingEqual. cbv zeta. cbn [isNull srcArr]. unfold checked. destruct (da_alloc d) eqn:Ad; [|split; done]. cbn [negb].
  rewrite !Z.eqb_refl. split; [|done]. intros _.
  assert (HG : forall c, 0 <= c < zlen (da_vals d) -> exists v, G f (da_vals d) (fun c => da_vals d @ c) c = Some v).
  { eapply (all_defined f d (ij d)); [done| |done]. intros i j Hi Hj. split; [apply ij_at; lia|by apply ij_some]. }
  pose proof (t2_row f (da_vals d) (fun c => da_vals d @ c) Self (zlen (da_vals d)) 0 0 (da_vals d)) as H. rewrite !Z.add_0_l in H.
  destruct (leave_ok d (transform2 f Self (zlen (da_vals d)) 0 0 (da_vals d)) (upto f (da_vals d) (fun c => da_vals d @ c) (zlen (da_vals d)))) as (l & E & U).
  - apply H; try lia; [|done|apply upto_0]. intros k l Hk [U1 U2]. cbn [srcVals]. rewrite !Z.add_0_l, U2. replace (_ && _) with false by lia. done.
  - exists l. rewrite E, Ad. split; [done|]. eapply combined; [done| |done|done]. intros i j Hi Hj. apply ij_at; lia.
Qed.
