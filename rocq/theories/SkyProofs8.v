From Verif Require Import Base DataArray ArrLib SlicesSpec SlicesModel SlicesProofs RenumSpec RenumModel RenumProofs SearchSpec StdModel StdProofs SearchProofs IndexSpec IndexModel FillLib IndexProofs IndexProofs2 IndexProofs3 IndexProofs4 IndexProofs5 LayoutModel SkyModel SkySpec SkyProofs SkyProofs2 SkyProofs3 SkyProofs4 SkyProofs5 SkyProofs6 SkyProofs7.
From Coq Require Import ZifyBool ZifyNat.

Lemma at_pos {A} (l : list A) i x : l @ i = Some x -> exists a b, l = a ++ x :: b /\ i = zlen a /\ (forall y, zset l i y = a ++ y :: b) /\ delete (Z.to_nat i) l = a ++ b.
Proof.
  intros H. pose proof (list_split _ _ _ H) as E. set (a := take (Z.to_nat i) l) in *. set (b := drop _ l) in *. exists a, b. pose proof (zlook_Some_lt _ _ _ H).
  assert (i = zlen a) as Hi by (unfold a; rewrite zlen_take; lia). clearbody a b. subst l. split; [done|]. split; [done|]. rewrite Hi. split.
  - intros y. apply zset_mid.
  - unfold zlen. rewrite Nat2Z.id. rewrite delete_take_drop. rewrite take_app. f_equal. change (a ++ x :: b) with (a ++ [x] ++ b). rewrite app_assoc.
    replace (Datatypes.S (length a)) with (length (a ++ [x])) by (rewrite app_length; simpl; lia). apply drop_app.
Qed.
Lemma step3_ok pss s c pss' : sky3 pss s -> on_lists3 pss c = Some pss' -> exists s', on_array3 s c = Ok s' /\ sky3 pss' s'.
Proof.
  intros Hs H. destruct c as [i p|i j p|i j]; simpl in *; (destruct (pss @ i) as [qs|] eqn:Ei; [|done]); simpl in H; destruct (at_pos _ _ _ Ei) as (A & B & -> & -> & HA & _).
  - injection H as <-. rewrite HA. by apply pushBack_ok.
  - destruct (qs @ j) as [q|] eqn:Ej; [|done]. simpl in H. injection H as <-. destruct (at_pos _ _ _ Ej) as (a & b & -> & -> & Ha & _). rewrite Ha, HA. by apply (replacePack_ok A a q b B).
  - destruct (qs @ j) as [q|] eqn:Ej; [|done]. simpl in H. injection H as <-. destruct (at_pos _ _ _ Ej) as (a & b & -> & -> & _ & Ha). rewrite Ha, HA. by apply (deletePack_ok A a q b B).
Qed.
Lemma step2_ok ps s c ps' : sky2 ps s -> on_lists2 ps c = Some ps' -> exists s', on_array2 s c = Ok s' /\ sky2 ps' s'.
Proof.
  intros Hs H. destruct c as [k p|k|ids]; simpl in *.
  - destruct (ps @ k) as [q|] eqn:Ek; [|done]. simpl in H. injection H as <-. destruct (at_pos _ _ _ Ek) as (a & b & -> & -> & Ha & _). rewrite Ha.
    destruct (replaceSimple_ok a q b s p Hs) as (s' & ? & ? & ?). exists s'. done.
  - destruct (ps @ k) as [q|] eqn:Ek; [|done]. simpl in H. case_bool_decide; [done|]. injection H as <-. destruct (at_pos _ _ _ Ek) as (a & b & -> & -> & _ & Ha). rewrite Ha.
    destruct (deleteSimple_ok a q b s Hs) as (s' & ? & ? & ?); [done|]. exists s'. done.
  - destruct (forallb _ ids) eqn:E; [|done]. injection H as <-. destruct (deletes_ok ps s ids Hs) as (s' & ? & ? & ?).
    + intros i Hi. rewrite forallb_forall in E. specialize (E i). apply elem_of_list_In in Hi. specialize (E Hi). lia.
    + exists s'. done.
Qed.
Lemma run_ok {A C} (R : A -> sky -> Prop) (la : A -> C -> option A) (ca : sky -> C -> res sky) :
  (forall a s c a', R a s -> la a c = Some a' -> exists s', ca s c = Ok s' /\ R a' s') ->
  forall cs a s a', R a s -> run_lists la a cs = Some a' -> exists s', foldM ca cs s = Ok s' /\ R a' s'.
Proof.
  intros Hstep. induction cs as [|c cs IH]; intros a s a' HR H; [injection H as <-; exists s; done|]. cbn [run_lists] in H. destruct (la a c) as [a1|] eqn:E; [|done].
  simpl in H. destruct (Hstep _ _ _ _ HR E) as (s1 & Hs1 & HR1). cbn [foldM]. rewrite Hs1. cbn [bind]. by apply (IH a1).
Qed.
Lemma sky2_determined ps ps' s : sky2 ps s -> sky2 ps' s -> ps = ps'.
Proof.
  intros H H'. assert (zlen ps = zlen ps') as Hl by (pose proof (len2 _ _ H); pose proof (len2 _ _ H'); lia).
  apply zlook_ext_lt; [done|]. intros i Hi. destruct (zlook_lt ps i Hi) as [p Hp]. destruct (zlook_lt ps' i) as [p' Hp']; [lia|]. rewrite Hp, Hp'. f_equal.
  destruct (at_pos _ _ _ Hp) as (a & b & E & Hi1 & _). destruct (at_pos _ _ _ Hp') as (a' & b' & E' & Hi2 & _). rewrite E in H. rewrite E' in H'.
  pose proof (getSimple_ok _ _ _ _ H) as G. pose proof (getSimple_ok _ _ _ _ H') as G'. rewrite <- Hi1 in G. rewrite <- Hi2 in G'. congruence.
Qed.
Lemma get_ok ps s k p : sky2 ps s -> ps @ k = Some p -> getSimplePackSafe s k = Ok p.
Proof. intros Hs Hp. destruct (at_pos _ _ _ Hp) as (a & b & -> & -> & _). by apply (getSimple_ok a p b). Qed.
Lemma unique_full ps s : sky2 ps s -> exists s' ps', uniqueNotSortedByPack s = Ok s' /\ sky2 ps' s' /\ Forall2 as_set ps ps'.
Proof.
  intros Hs. destruct (unique_ok ps s Hs) as (s' & H1 & H2). exists s', (set_of <$> ps). split; [done|]. split; [done|]. clear. induction ps; constructor; [apply as_set_of|done].
Qed.
Lemma find_throw s ids : s_super s <> [] -> findPackIds s ids [] = Throw.
Proof. intros H. unfold findPackIds, checkSuperIndex. destruct (zlen (s_super s) =? 0); done. Qed.
Lemma push_end pss s p strict : sky3 pss s -> pushBackPack strict s (zlen pss) p = UB.
Proof.
  intros (ps & (x & y & _ & Hi) & _). assert (zlen (s_super s) = zlen pss + 1) as Hl by (by rewrite Hi, offs_len, zlen_fmap). pose proof (zlen_nonneg pss).
  unfold pushBackPack, checkSuperIndex, validSuperIndex. replace (_ =? 0) with false by lia. cbn [ifthrow]. replace ((_ <? 0) || _) with false by lia. cbn [ifthrow]. rewrite rd_ub by lia. done.
Qed.
