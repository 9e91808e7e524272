From Coq Require Import ZifyBool ZifyNat.
From Verif Require Import Base DataArray ArrLib FillLib SetModel ArithModel ArithSpec ArithProofs.

(** ** modulusEqual. *)
Lemma modulus_same (d a : da Z) : da_nc a = da_nc d -> modulusEqual d (Other a) = somethingEqual cmod d (Other a).
Proof. intros E. unfold modulusEqual, somethingEqual. cbv zeta. cbn [srcArr]. rewrite E, !Z.eqb_refl. done. Qed.
Lemma modulus_ok (d a : da Z) : da_wf d -> da_wf a -> (da_nc a = da_nc d \/ da_nt a <> 1 \/ da_nt d = 1) -> defined_on cmod d (operand d a) ->
  in_place (da_alloc d = true /\ da_alloc a = true /\ shapes_fit d a /\ da_nc a = da_nc d) cmod d (operand d a) (modulusEqual d (Other a)).
Proof.
  intros Wd Wa Hc Hd. destruct (decide (da_nc a = da_nc d)) as [E|E].
  - rewrite modulus_same by done. destruct (something_ok cmod d a Wd Wa Hd) as [H1 H2]. split; [intros; apply H1; tauto|]. intros. apply H2. tauto.
  - split; [tauto|]. intros _. unfold modulusEqual. cbv zeta. cbn [srcArr isNull]. unfold checked. destruct (negb (da_alloc d)); [done|]. destruct (negb (da_alloc a)); [done|].
    replace (da_nc d =? da_nc a) with false by lia. replace (da_nc a =? da_nc d) with false by lia. destruct (Z.eqb_spec (da_nt d) (da_nt a)); [destruct (_ =? 1); done|]. replace (da_nt a =? 1) with false by lia. done.
Qed.
Lemma modulus_self (d : da Z) : da_wf d -> defined_on cmod d (ij d) -> in_place (da_alloc d = true) cmod d (ij d) (modulusEqual d Self).
Proof. intros W H. replace (modulusEqual d Self) with (somethingEqual cmod d Self); [by apply something_self|]. unfold modulusEqual, somethingEqual. cbv zeta. cbn [srcArr]. rewrite !Z.eqb_refl. done. Qed.

(** ** Loops that may stop. *)
Section UPD.
Context {A : Type} (l0 : list A) (ok : Z -> A -> bool) (h : Z -> A -> A).
Definition U (n : Z) (l : list A) : Prop := zlen l = zlen l0 /\ forall c, l @ c = if (0 <=? c) && (c <? n) then h c <$> l0 @ c else l0 @ c.
Definition okAt (c : Z) : Prop := forall x, l0 @ c = Some x -> ok c x = true.
Lemma each_update (H : Z -> list A -> A -> res A) n : (forall i l x, U i l -> 0 <= i -> l0 @ i = Some x -> H i l x = if ok i x then Ok (h i x) else Throw) ->
  forall m i l, 0 <= i -> i + Z.of_nat m = n -> n <= zlen l0 -> U i l -> (forall c, 0 <= c < i -> okAt c) ->
  exists r l', each (fun i l => update i (H i l) l) (seqZ i (Z.of_nat m)) l = (r, l') /\
    ((r = Ok tt /\ U n l' /\ forall c, 0 <= c < n -> okAt c) \/ exists k, 0 <= k < n /\ r = Throw /\ U k l' /\ ~ okAt k /\ forall c, 0 <= c < k -> okAt c).
Proof.
  intros HH. induction m as [|m IH]; intros i l Hi Hm Hn HU Ho.
  - exists (Ok tt), l. split; [done|]. left. replace n with i by lia. done.
  - rewrite seqZ_cons by lia. replace (Z.pred (Z.of_nat (S m))) with (Z.of_nat m) by lia. cbn [each]. destruct (zlook_lt l0 i) as [x Hx]; [lia|].
    assert (E : l @ i = Some x). { destruct HU as [_ ->]. replace (_ && _) with false by lia. done. }
    unfold update at 1. rewrite (rd_ok _ _ _ E). cbn [bind]. rewrite (HH i l x HU Hi Hx). destruct (ok i x) eqn:Eo; cbn [bind].
    + destruct HU as [L HU]. rewrite wr_ok by lia. replace (Z.succ i) with (i + 1) by lia. apply IH; [lia|lia|done| |].
      * split; [by rewrite zlen_zset|]. intros c. rewrite zlook_zset by lia. destruct (Z.eqb_spec c i) as [->|N]; [rewrite Hx; replace (_ && _) with true by lia; done|].
        rewrite HU. replace ((0 <=? c) && (c <? i + 1)) with ((0 <=? c) && (c <? i)) by lia. done.
      * intros c Hc. destruct (decide (c = i)) as [->|]; [|apply Ho; lia]. intros x' Hx'. congruence.
    + exists Throw, l. split; [done|]. right. exists i. split; [lia|]. split; [done|]. split; [done|]. split; [|intros; apply Ho; lia]. intros K. specialize (K x Hx). congruence.
Qed.
End UPD.
Lemma maps_loop {A} (d : da A) (okb : Z -> A -> bool) (ok : Z -> A -> Prop) (h : Z -> A -> A) (good : Prop) (H : Z -> list A -> A -> res A) n : good -> n = zlen (da_vals d) -> (forall k x, okb k x = true <-> ok k x) ->
  (forall i l x, U (da_vals d) h i l -> 0 <= i -> da_vals d @ i = Some x -> H i l x = if okb i x then Ok (h i x) else Throw) ->
  maps_all good ok h d (done1 d (each (fun i l => update i (H i l) l) (seqZ 0 n) (da_vals d))).
Proof.
  intros Hg -> Hok HH. pose proof (zlen_nonneg (da_vals d)). destruct (each_update (da_vals d) okb h H (zlen (da_vals d)) HH (Z.to_nat (zlen (da_vals d))) 0 (da_vals d)) as (r & l' & E & C); try lia.
  { split; [done|]. intros c. replace (_ && _) with false by lia. done. }
  rewrite Z2Nat.id in E by lia. rewrite E. unfold done1, ret, maps_all. cbn [da_alloc da_nc da_vals].
  assert (L : zlen l' = zlen (da_vals d)) by (destruct C as [(_ & [? _] & _)|(? & _ & _ & [? _] & _)]; done).
  do 3 (split; [done|]). split; [|split].
  - intros [_ K]. destruct C as [(-> & [_ HU] & _)|(k & Hk & _ & _ & N & _)].
    + split; [done|]. intros k x Hx. rewrite HU, Hx. pose proof (zlook_Some_lt _ _ _ Hx). replace (_ && _) with true by lia. done.
    + exfalso. apply N. intros x Hx. apply Hok. eauto.
  - tauto.
  - intros k y _ Hy N B. pose proof (zlook_Some_lt _ _ _ Hy). destruct C as [(_ & _ & K)|(k' & Hk & -> & [_ HU] & N' & B')].
    + exfalso. apply N, Hok. apply (K k); [lia|done].
    + assert (k' = k) as ->.
      { destruct (Z.lt_trichotomy k' k) as [Q|[Q|Q]]; [|done|].
        - exfalso. apply N'. intros x Hx. apply Hok. eapply B; [|done]. lia.
        - exfalso. apply N, Hok. apply (B' k); [lia|done]. }
      split; [done|]. split.
      * intros c x Hc Hx. rewrite HU, Hx. pose proof (zlook_Some_lt _ _ _ Hx). replace (_ && _) with true by lia. done.
      * intros c Hc. rewrite HU. replace (_ && _) with false by lia. done.
Qed.
Lemma maps_throw {A} (d : da A) good ok h : ~ good -> maps_all good ok h d (Throw, d).
Proof. intros N. unfold maps_all. do 3 (split; [done|]). split; [tauto|]. split; [done|]. tauto. Qed.

Lemma power_ok x e : 0 <= e -> power x e = x ^ e.
Proof.
  intros He. unfold power. assert (E : forZ 0 e (fun _ t => Ok (t * x)) 1 = Ok (x ^ e)); [|by rewrite E].
  apply wp_ok_eq. apply (wp_forZ (fun k t => t = x ^ k)); [done|done| |done]. intros i t Hi ->. cbn [wp]. rewrite Z.pow_add_r by lia. lia.
Qed.
Lemma powEqual_ok (d a : da Z) : da_wf d -> da_wf a ->
  maps_all (da_nt a = da_nt d /\ da_nc d = 1 /\ da_nc a = 1) (fun k _ => exists e, da_vals a @ k = Some e /\ 0 <= e) (fun k x => x ^ default 0 (da_vals a @ k)) d (powEqual d (Other a)).
Proof.
  intros Wd Wa. pose proof (da_wf_len d Wd) as (L & N1 & N2). pose proof (da_wf_len a Wa) as (La & M1 & M2). unfold powEqual. cbv zeta. cbn [isNull srcArr]. unfold checked.
  destruct (Z.eqb_spec (da_nt d) (da_nt a)) as [E1|E1]; [cbn [negb]|apply maps_throw; lia]. destruct (Z.eqb_spec (da_nc d) 1) as [E2|E2]; [cbn [negb orb]|apply maps_throw; lia]. destruct (Z.eqb_spec (da_nc a) 1) as [E3|E3]; [cbn [negb]|apply maps_throw; lia].
  apply (maps_loop d (fun k _ => 0 <=? default (-1) (da_vals a @ k))); [lia|lia| |].
  - intros k x. destruct (da_vals a @ k) as [e|] eqn:E; cbn [from_option id]; split; try (intros [? [? ?]]; congruence || (simplify_eq; lia)); intros Q; try lia. exists e. split; [done|lia].
  - intros i l x _ Hi Hx. cbn [srcVals]. pose proof (zlook_Some_lt _ _ _ Hx). destruct (zlook_lt (da_vals a) i) as [e He]; [lia|]. rewrite (rd_ok _ _ _ He), He. cbn [bind from_option id]. destruct (Z.leb_spec 0 e); [|done]. by rewrite power_ok.
Qed.
Lemma powEqual_self (d : da Z) : da_wf d -> maps_all (da_nc d = 1) (fun _ x => 0 <= x) (fun _ x => x ^ x) d (powEqual d Self).
Proof.
  intros Wd. pose proof (da_wf_len d Wd) as (L & N1 & N2). unfold powEqual. cbv zeta. cbn [isNull srcArr]. unfold checked. rewrite Z.eqb_refl. cbn [negb].
  destruct (Z.eqb_spec (da_nc d) 1) as [E2|E2]; [cbn [negb orb]|apply maps_throw; lia].
  apply (maps_loop d (fun k x => 0 <=? x)); [lia|lia|intros; lia|].
  intros i l x [_ HU] Hi Hx. cbn [srcVals]. assert (E : l @ i = Some x). { rewrite HU. replace (_ && _) with false by lia. done. } rewrite (rd_ok _ _ _ E). cbn [bind]. destruct (Z.leb_spec 0 x); [|done]. by rewrite power_ok.
Qed.

(** ** apply*. *)
Lemma onAll_ok {A} (d : da A) (good : Prop) (okb : A -> bool) (ok : A -> Prop) (h : A -> A) (H : A -> res A) : good -> (forall x, okb x = true <-> ok x) -> (forall x, H x = if okb x then Ok (h x) else Throw) ->
  maps_all good (fun _ x => ok x) (fun _ x => h x) d (onAll H d).
Proof. intros Hg Hok HH. unfold onAll. apply (maps_loop d (fun _ x => okb x)); [done|done|intros; apply Hok|]. intros; apply HH. Qed.
Ltac allc d := unfold checked; destruct (da_alloc d) eqn:?; cbn [negb]; [|try (apply maps_throw; (tauto || lia || (intros [? ?]; done) || done))].
Lemma applyLin_ok (d : da Z) a b : maps_all (da_alloc d = true) (fun _ _ => True) (fun _ x => a * x + b) d (applyLin d a b).
Proof. unfold applyLin. allc d. by apply (onAll_ok d _ (fun _ => true) (fun _ => True)). Qed.
Lemma abs_ok (d : da Z) : maps_all (da_alloc d = true) (fun _ _ => True) (fun _ x => Z.abs x) d (absInPlace d).
Proof. unfold absInPlace. allc d. by apply (onAll_ok d _ (fun _ => true) (fun _ => True)). Qed.
Lemma applyInv_ok (d : da Z) num : maps_all (da_alloc d = true) (fun _ x => x <> 0) (fun _ x => Z.quot num x) d (applyInv d num).
Proof. unfold applyInv. allc d. apply (onAll_ok d _ (fun x => negb (x =? 0)) (fun x => x <> 0)); [done|intros; lia|]. intros x. unfold cdiv. destruct (Z.eqb_spec x 0); done. Qed.
Lemma applyDivideBy_ok (d : da Z) val : maps_all (da_alloc d = true /\ val <> 0) (fun _ _ => True) (fun _ x => Z.quot x val) d (applyDivideBy d val).
Proof. unfold applyDivideBy. unfold checked at 1. destruct (Z.eqb_spec val 0) as [E|E]; [apply maps_throw; lia|]. allc d. apply (onAll_ok d _ (fun _ => true) (fun _ => True)); [done|done|]. intros x. unfold cdiv. replace (val =? 0) with false by lia. done. Qed.
Lemma applyModulus_ok (d : da Z) val : maps_all (da_alloc d = true /\ 0 < val) (fun _ _ => True) (fun _ x => Z.rem x val) d (applyModulus d val).
Proof. unfold applyModulus. unfold checked at 1. destruct (Z.leb_spec val 0) as [E|E]; [apply maps_throw; lia|]. allc d. apply (onAll_ok d _ (fun _ => true) (fun _ => True)); [done|done|]. intros x. unfold cmod. replace (val =? 0) with false by lia. done. Qed.
Lemma applyRModulus_ok (d : da Z) val : maps_all (da_alloc d = true) (fun _ x => 0 < x) (fun _ x => Z.rem val x) d (applyRModulus d val).
Proof. unfold applyRModulus. allc d. apply (onAll_ok d _ (fun x => 0 <? x) (fun x => 0 < x)); [done|intros; lia|]. intros x. unfold cmod. destruct (Z.ltb_spec 0 x); [|done]. replace (x =? 0) with false by lia. done. Qed.
Lemma applyPow_ok (d : da Z) val : maps_all (da_alloc d = true /\ 0 <= val) (fun _ _ => True) (fun _ x => x ^ val) d (applyPow d val).
Proof.
  unfold applyPow. allc d. destruct (Z.ltb_spec val 0) as [E|E]; [apply maps_throw; lia|]. destruct (Z.eqb_spec val 0) as [->|N].
  - apply (onAll_ok d _ (fun _ => true) (fun _ => True)); done.
  - apply (onAll_ok d _ (fun _ => true) (fun _ => True)); [done|done|]. intros x. by rewrite power_ok by lia.
Qed.
Lemma applyRPow_ok (d : da Z) val : maps_all (da_alloc d = true) (fun _ x => 0 <= x) (fun _ x => val ^ x) d (applyRPow d val).
Proof. unfold applyRPow. allc d. apply (onAll_ok d _ (fun x => 0 <=? x) (fun x => 0 <= x)); [done|intros; lia|]. intros x. destruct (Z.leb_spec 0 x); [|done]. by rewrite power_ok. Qed.
Lemma applyLinCompo_ok (d : da Z) a b c : da_wf d -> 0 <= c ->
  in_place (da_alloc d = true /\ c < da_nc d) (fun x y => Ok y) d (fun i j => (fun x => if j =? c then a * x + b else x) <$> ij d i j) (applyLinCompo d a b c).
Proof.
  intros Wd Hc. pose proof (da_wf_len d Wd) as (L & N1 & N2). unfold applyLinCompo, checked. destruct (da_alloc d) eqn:Ad; [cbn [negb]|split; [intros [? _]; done|done]]. destruct (Z.leb_spec (da_nc d) c) as [E|E]; [split; [lia|done]|]. split; [|lia]. intros _.
  destruct (leave_ok d (forZ 0 (da_nt d) (fun i l => let* x := rd l (c + i * da_nc d) in wr l (c + i * da_nc d) (a * x + b)) (da_vals d))
    (fun l => zlen l = zlen (da_vals d) /\ forall i j, 0 <= i < da_nt d -> 0 <= j < da_nc d -> l @ (i * da_nc d + j) = (fun x => if j =? c then a * x + b else x) <$> da_vals d @ (i * da_nc d + j))) as (l & E1 & E2 & E3).
  - apply (wp_forZ (fun k l => zlen l = zlen (da_vals d) /\ forall i j, 0 <= i < da_nt d -> 0 <= j < da_nc d -> l @ (i * da_nc d + j) = (fun x => if (j =? c) && (i <? k) then a * x + b else x) <$> da_vals d @ (i * da_nc d + j))); [done| | |].
    + split; [done|]. intros i j Hi Hj. replace (_ && _) with false by lia. destruct (_ @ _); done.
    + intros k l Hk [Hl HI]. rewrite (Z.add_comm c). destruct (zlook_lt (da_vals d) (k * da_nc d + c)) as [x Hx]; [nia|]. assert (Ex : l @ (k * da_nc d + c) = Some x). { rewrite HI, Hx by lia. replace (_ && _) with false by lia. done. }
      rewrite (rd_ok _ _ _ Ex). cbn [bind]. rewrite wr_ok by nia. cbn [wp]. split; [by rewrite zlen_zset|]. intros i j Hi Hj. rewrite zlook_zset by nia. destruct (Z.eqb_spec (i * da_nc d + j) (k * da_nc d + c)) as [Q|Q].
      * assert (i = k /\ j = c) as [-> ->]. { assert (i = k) by nia. subst. lia. } rewrite Hx. cbn. replace (_ && _) with true by lia. done.
      * rewrite HI by done. destruct (Z.eqb_spec j c) as [->|]; [|done]. assert (i <> k) by (intros ->; done). replace (i <? k + 1) with (i <? k) by lia. done.
    + intros l [Hl HI]. split; [done|]. intros i j Hi Hj. rewrite HI by done. replace (i <? da_nt d) with true by lia. rewrite andb_true_r. done.
  - exists l. rewrite E1, Ad. split; [done|]. split; [done|]. intros i j x Hx. apply ij_in in Hx as (Hi & Hj & Hx); [|done]. rewrite ij_at, Hx by lia. eexists _, _. split; [done|]. split; [done|]. rewrite E3, Hx by done. done.
Qed.
