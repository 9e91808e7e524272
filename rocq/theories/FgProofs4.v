(** addGroup: the group created holds the entities given, every other group keeps its own. *)
From stdpp Require Import strings.
From Coq Require Import ZifyBool ZifyNat.
From Verif Require Import Base DataArray StdModel StdProofs ArrLib RenumModel RenumSpec RenumProofs PermProofs SearchModel SearchSpec SearchProofs SetsModel SetsProofs FgModel FgSpec FgProofs FgProofs2 FgProofs3.

Lemma maxValue_ok (x : Z) a : exists y, maxValue (x :: a) = Ok y /\ forall z, z ∈ x :: a -> z <= y.
Proof.
  cbn [maxValue]. eexists. split; [done|]. revert x. induction a as [|w a IH]; intros x z; cbn [foldl].
  - intros ->%elem_of_list_singleton. lia.
  - pose proof (IH (Z.max x w) (Z.max x w)) as H. rewrite !elem_of_cons. intros [->|[->|Hz]].
    + etransitivity; [|apply H; left]. lia.
    + etransitivity; [|apply H; left]. lia.
    + apply IH. by right.
Qed.
Lemma famMax_ok (F : list (string * Z)) r : r <= foldl (fun r (p : string * Z) => Z.max (Z.abs p.2) r) r F /\
  forall n x, (n, x) ∈ F -> Z.abs x <= foldl (fun r (p : string * Z) => Z.max (Z.abs p.2) r) r F.
Proof.
  revert r. induction F as [|[k y] F IH]; intros r; cbn [foldl].
  - split; [lia|]. by intros n x ?%elem_of_nil.
  - destruct (IH (Z.max (Z.abs y) r)) as [H1 H2]. cbn [snd]. split; [lia|]. intros n x [[= -> ->]|Hin]%elem_of_cons; [lia|by apply (H2 n)].
Qed.
Lemma arraysMax_ok (vs : list level) r0 : (forall v a, v ∈ vs -> lv_fam v = Some a -> 0 < zlen a) ->
  exists r, foldM (fun r v => match lv_fam v with None => Ok r | Some a => let* x := maxValue a in Ok (Z.max r (Z.abs x)) end) vs r0 = Ok r /\ r0 <= r /\
  forall v a, v ∈ vs -> lv_fam v = Some a -> 0 <= r.
Proof.
  revert r0. induction vs as [|w vs IH]; intros r0 H; cbn [foldM].
  - exists r0. split; [done|]. split; [lia|]. by intros v a ?%elem_of_nil.
  - assert (H' : forall v a, v ∈ vs -> lv_fam v = Some a -> 0 < zlen a). { intros v a Hv. apply H. by right. }
    destruct (lv_fam w) as [a|] eqn:Ew.
    + pose proof (H w a ltac:(by left) Ew) as Hl. destruct a as [|x a]; [done|]. destruct (maxValue_ok x a) as (y & -> & _). cbn [bind].
      destruct (IH (Z.max r0 (Z.abs y)) H') as (r & -> & H1 & H2). exists r. split; [done|]. split; [lia|]. intros. lia.
    + cbn [bind]. destruct (IH r0 H') as (r & -> & H1 & H2). exists r. split; [done|]. split; [lia|]. intros v a [->|Hv]%elem_of_cons Ha; [congruence|by apply (H2 v a)].
Qed.
Lemma theMaxAbs_ok m l a : valid m -> bounded m -> (forall l nb, has_level m l nb -> 0 < nb) -> fieldOf l m = Some a ->
  exists mx, theMaxAbs m = Ok mx /\ 0 <= mx /\ (forall n x, sget n (fm_fams m) = Some x -> Z.abs x <= mx) /\ forall l x, in_field m l x -> Z.abs x <= mx.
Proof.
  intros Hv Hb Hn Hf. destruct Hv as (Hof & Hog & Hnd & Hnb & Hlen). apply fieldOf_iff in Hf as (v & Hv & Hl & Ha); [|done].
  unfold theMaxAbs, maxAbsInArrays. destruct (arraysMax_ok (fm_levs m) lowest) as (r & -> & H1 & H2).
  { intros w b Hw Hb'. rewrite (Hlen w b Hw Hb'). apply (Hn (lv_id w)). exists w. done. }
  cbn [bind]. eexists. split; [done|]. specialize (H2 v a Hv Ha). destruct (famMax_ok (fm_fams m) lowest) as [H3 H4].
  split; [lia|]. assert (Hfm : forall n x, sget n (fm_fams m) = Some x -> Z.abs x <= Z.max (foldl (fun r (p : string * Z) => Z.max (Z.abs p.2) r) lowest (fm_fams m)) r).
  { intros n x Hx. apply elem_sget in Hx; [|done]. apply H4 in Hx. lia. }
  split; [done|]. intros l' x Hx. apply Hb in Hx as [->|(n & id & Hid & Hle)]; [lia|]. apply elem_sget in Hid; [|done]. apply Hfm in Hid. lia.
Qed.
Lemma theMaxAbs_vals l m a : lv_fam <$> findLev l m = Some (Some a) -> fieldOf l m = Some a.
Proof. unfold fieldOf. destruct (findLev l m); cbn; congruence. Qed.

Lemma clash_ok m l g a : valid m -> closed m -> fieldOf l m = Some a -> exists c : bool, clash a g m = Ok c /\ (c = true <-> exists e, member m l g e).
Proof.
  intros Hv Hc Ha. pose proof Hv as (Hf & Hg & _). unfold clash. destruct (sget g (fm_grps m)) as [fams|] eqn:Eg.
  - unfold getFamiliesIdsOnGroup, getFamiliesOnGroup. rewrite Eg. cbn [bind].
    destruct (familiesIds_ok m fams) as (ids & Hids & Hin).
    { intros n Hn. destruct (Hc g fams n) as [id Hid]; [by apply elem_sget|done|]. exists id. by apply elem_sget. }
    rewrite Hids. cbn [bind]. destruct (presenceAny_ok ids a) as (b & -> & Hb). exists b. split; [done|]. rewrite Hb. split.
    + intros (v & Hv1%Hin & (e & He)%elem_of_zlook). exists e. apply member_iff; [done|]. exists fams, a, v. done.
    + intros (e & He). apply member_iff in He as (fams' & a' & x & E1 & E2 & E3 & E4); [|done]. replace fams' with fams in E4 by congruence. replace a' with a in E3 by congruence.
      exists x. split; [by apply Hin|by apply zlook_elem in E3].
  - exists false. split; [done|]. split; [done|]. intros (e & He). apply member_iff in He as (fams' & a' & x & E1 & _); [|done]. congruence.
Qed.

(** Changing the family field of a level. *)
Lemma elem_putFam l a m w : w ∈ fm_levs (putFam l a m) <-> exists v, v ∈ fm_levs m /\ w = (if lv_id v =? l then LV (lv_id v) (lv_nb v) a else v).
Proof. unfold putFam. cbn [fm_levs]. rewrite elem_of_list_fmap. split; intros (v & H1 & H2); exists v; done. Qed.
Lemma valid_put m F G l b nb : valid m -> ordered F -> ordered G -> has_level m l nb -> zlen b = nb -> valid (putFam l (Some b) (withMaps m F G)).
Proof.
  intros (Hf & Hg & Hn & Hnb & Hlen) HF HG Hl Hb. split; [done|]. split; [done|]. split; [rewrite putFam_id; exact Hn|].
  assert (Hv : forall v, v ∈ fm_levs m -> lv_id v = l -> lv_nb v = nb).
  { intros v Hv E. destruct Hl as (w & Hw & E' & E''). 
    pose proof (proj2 (findLev_Some l m v Hn) (conj Hv E)) as H1. pose proof (proj2 (findLev_Some l m w Hn) (conj Hw E')) as H2. congruence. }
  split.
  - intros w (v & Hv' & ->)%elem_putFam. destruct (Z.eqb_spec (lv_id v) l); by apply (Hnb v).
  - intros w a (v & Hv' & ->)%elem_putFam. destruct (Z.eqb_spec (lv_id v) l) as [E|E]; cbn; [intros [= <-]; rewrite (Hv v) by done; done|by apply Hlen].
Qed.
Lemma levels_put m F G l b : same_levels m (putFam l b (withMaps m F G)).
Proof.
  intros l' nb. unfold has_level. split.
  - intros (v & H1 & H2 & H3). eexists. split; [apply elem_putFam; exists v; done|]. by destruct (lv_id v =? l).
  - intros (w & (v & Hv & ->)%elem_putFam & H2 & H3). exists v. split; [done|]. by destruct (lv_id v =? l).
Qed.
Lemma in_field_fieldOf m l x : valid m -> in_field m l x -> exists a, fieldOf l m = Some a /\ x ∈ a.
Proof. intros H. by apply in_field_iff. Qed.

Lemma created_ok m l v a : coherent m -> findLev l m = Some v ->
  a = (match lv_fam v with Some a => a | None => replicate (Z.to_nat (lv_nb v)) 0 end) ->
  coherent (putFam l (Some a) m) /\ same_content m (putFam l (Some a) m) /\ same_levels m (putFam l (Some a) m) /\
  fieldOf l (putFam l (Some a) m) = Some a /\ zlen a = lv_nb v.
Proof.
  intros (Hv & Hc & Hd & Hap & Hb & Hp) Hl Ea. pose proof Hv as (HoF & HoG & Hn & Hnb & Hlen).
  apply (findLev_Some l m v Hn) in Hl as Hl'. destruct Hl' as [Hin Hid].
  assert (Hla : zlen a = lv_nb v).
  { subst a. destruct (lv_fam v) as [a|] eqn:E; [by apply Hlen|]. rewrite zlen_replicate. specialize (Hnb v Hin). lia. }
  assert (HL : has_level m l (lv_nb v)) by (exists v; done).
  assert (Hv1 : valid (putFam l (Some a) m)). { apply (valid_put m (fm_fams m) (fm_grps m) l a (lv_nb v)); done. }
  assert (Hf1 : fieldOf l (putFam l (Some a) m) = Some a). { rewrite fieldOf_putFam by done. rewrite Z.eqb_refl, Hl. done. }
  assert (Hf2 : forall l', l' <> l -> fieldOf l' (putFam l (Some a) m) = fieldOf l' m). { intros l' Hne. rewrite fieldOf_putFam by done. by destruct (Z.eqb_spec l' l). }
  assert (Hf3 : fieldOf l m = Some a \/ (fieldOf l m = None /\ forall e x, a @ e = Some x -> x = 0)).
  { unfold fieldOf. rewrite Hl. cbn. destruct (lv_fam v) as [b|]; [left; by subst|]. right. split; [done|]. subst a. intros e x Hx. apply zlook_elem in Hx. by apply elem_of_replicate in Hx as [? _]. }
  assert (Hfi : forall l' x, in_field (putFam l (Some a) m) l' x -> in_field m l' x \/ x = 0).
  { intros l' x Hx. apply in_field_iff in Hx as (b & E & Hx); [|done]. destruct (decide (l' = l)) as [->|Hne].
    - replace b with a in Hx by congruence. destruct Hf3 as [Hf3|[_ Hf3]]; [left; apply in_field_iff; eauto|]. right. apply elem_of_zlook in Hx as [e He]. by apply (Hf3 e).
    - left. apply in_field_iff; [done|]. rewrite Hf2 in E by done. eauto. }
  split; [|split; [|split; [|split]]].
  - split; [done|]. split; [done|]. split; [done|]. split; [|split].
    + intros n id Hg. destruct (Hap n id Hg) as [H0 H1]. split; [done|]. intros l1 l2 [E1|?]%Hfi [E2|?]%Hfi; [by apply H1|done..].
    + intros l' x [Hx| ->]%Hfi; [by apply (Hb l')|by left].
    + intros l' nb Hx. apply (Hp l'). by apply (levels_put m (fm_fams m) (fm_grps m) l (Some a)).
  - intros l' g e. rewrite !member_iff by done. cbn [fm_fams fm_grps putFam]. split; intros (fams & b & x & E1 & E2 & E3 & E4).
    + destruct (decide (l' = l)) as [->|Hne]; [|rewrite Hf2 in E2 by done; by exists fams, b, x].
      replace b with a in E3 by congruence. destruct Hf3 as [Hf3|[_ Hf3]]; [by exists fams, a, x|]. exfalso.
      apply Hf3 in E3. subst x. destruct E4 as (n & Hn1 & Hn2). apply elem_sget in E1; [|done]. apply elem_sget in Hn2; [|done].
      destruct (Hap n 0) as [H0 _]; [|done]. exists g, fams. done.
    + exists fams, b, x. split; [done|]. split; [|done]. destruct (decide (l' = l)) as [->|Hne]; [|by rewrite Hf2].
      destruct Hf3 as [Hf3|[Hf3 _]]; congruence.
  - apply (levels_put m (fm_fams m) (fm_grps m) l (Some a)).
  - done.
  - done.
Qed.

Lemma increasing_nodup (l : list Z) : increasing l -> NoDup l.
Proof.
  intros H. apply NoDup_zlook. intros i j x Hi Hj. destruct (Z.lt_trichotomy i j) as [E|[E|E]]; [|done|].
  - specialize (H i j x x E Hi Hj). lia.
  - specialize (H j i x x E Hj Hi). lia.
Qed.
Lemma others_ok m l x : valid m -> oth (omap lv_fam (filter (fun v => lv_id v <> l) (fm_levs m))) x <-> exists l', l' <> l /\ in_field m l' x.
Proof.
  intros Hv. unfold oth, in_field. split.
  - intros (o & Ho & Hx). apply elem_of_list_omap in Ho as (v & Hv' & Hf). apply elem_of_list_filter in Hv' as [Hne Hin]. exists (lv_id v). split; [done|]. exists v, o. done.
  - intros (l' & Hne & v & a & H1 & H2 & H3 & H4). exists a. split; [|done]. apply elem_of_list_omap. exists v. split; [|done]. apply elem_of_list_filter. split; [congruence|done].
Qed.
Lemma inG_app F l1 l2 x : inG F (l1 ++ l2) x <-> inG F l1 x \/ inG F l2 x.
Proof.
  unfold inG. split.
  - intros (n & [Hn|Hn]%elem_of_app & Hx); eauto.
  - intros [(n & Hn & Hx)|(n & Hn & Hx)]; exists n; rewrite elem_of_app; tauto.
Qed.

Lemma underground_wp m l g ids a isNode nb : coherent m -> fieldOf l m = Some a -> has_level m l nb -> zlen a = nb ->
  wp (addGroupUnderground isNode (Some (g, vec ids)) l a m) (fun m' => acceptable m l g ids /\ group_added m l g ids m' /\ coherent m' /\ (no_repeat m -> no_repeat m')) (~ acceptable m l g ids).
Proof.
  intros Hco Ha Hlv Hnb. pose proof Hco as (Hv & Hc & Hd & Hap & Hbd & Hp). pose proof Hv as (HoF & HoG & Hn & Hnbs & Hlen).
  unfold addGroupUnderground. destruct (bool_decide_reflect (g = "")) as [Eg|Eg]; cbn [ifthrow]. { intros (_ & ? & _). done. }
  destruct (isStrictlyMonotonic_ok (vec ids) eq_refl eq_refl true) as (mo & -> & Hmo). cbn [bind da_vals vec] in *.
  destruct mo; cbn [negb]. 2:{ intros (_ & _ & Hi & _). assert (false = true) by (by apply Hmo). done. }
  assert (Hinc : increasing ids) by (by apply Hmo). clear Hmo.
  destruct (clash_ok m l g a Hv Hc Ha) as (c & -> & Hcl). cbn [bind].
  destruct c. { intros (_ & _ & _ & Hno). destruct (proj1 Hcl eq_refl) as [e He]. by apply Hno in He. }
  assert (Hno : forall e, ~ member m l g e). { intros e He. assert (false = true) by (apply Hcl; eauto). done. } clear Hcl.
  pose proof (selectSafe_wp (vec a) ids eq_refl (da_wf_vec a)) as Hw. rewrite da_nt_vec in Hw.
  destruct (mySelectByTupleIdSafe (vec a) ids) as [r| | |]; cbn [wp bind] in *; try done.
  2:{ destruct Hw as (e & He & Hout). intros ((nb' & Hl' & Hin) & _). apply Hin in He.
      apply has_level_iff in Hlv as (v & Ev & En); [|done]. apply has_level_iff in Hl' as (v' & Ev' & En'); [|done]. assert (v = v') by congruence. subst v'. lia. }
  destruct Hw as (Hrange & famIds & -> & Hfl & Hfi). cbn [da_nc vec] in *. cbn [da_vals]. rewrite unwrap_ok. cbn [bind].
  assert (Hfi' : forall i e, ids @ i = Some e -> famIds @ i = a @ e).
  { intros i e He. specialize (Hfi i e He 0). rewrite vec_ij in Hfi. rewrite <- Hfi. symmetry. apply (vec_ij famIds). }
  assert (Hids : forall e, e ∈ ids -> 0 <= e < zlen a) by (by apply not_out).
  destruct (differentValues_ok (vec famIds) eq_refl) as (diff & -> & Hdi & Hde). cbn [bind da_vals vec] in *.
  destruct (theMaxAbs_ok m l a Hv Hbd Hp Ha) as (mx & -> & Hmx & HmF & Hma). cbn [bind].
  set (sg := if isNode then 1 else -1). set (others := omap lv_fam (filter (fun v => lv_id v <> l) (fm_levs m))).
  assert (Hoth : forall x, oth others x <-> exists l', l' <> l /\ in_field m l' x) by (intros x; by apply others_ok).
  assert (Hina : forall x, x ∈ a -> in_field m l x). { intros x Hx. apply in_field_iff; eauto. }
  assert (Hdin : forall x, x ∈ diff <-> exists e, e ∈ ids /\ a @ e = Some x).
  { intros x. rewrite Hde. split.
    - intros (i & Hi)%elem_of_zlook. assert (exists e, ids @ i = Some e) as [e He]. { apply zlook_lt. apply zlook_Some_lt in Hi. lia. }
      exists e. split; [by apply zlook_elem in He|]. by rewrite <- (Hfi' i e).
    - intros (e & (i & Hi)%elem_of_zlook & He). apply (zlook_elem _ i). by rewrite (Hfi' i e). }
  assert (Hacc : acceptable m l g ids). { split; [exists nb; split; [done|]; intros e He; rewrite <- Hnb; by apply Hids|done]. }
  assert (HU : uniq (fm_fams m)). { intros n n' x H1 H2. apply elem_sget in H1; [|done]. apply elem_sget in H2; [|done]. by apply (Hd n n' x). }
  assert (Hcl' : forall g l n, sget g (fm_grps m) = Some l -> n ∈ l -> exists x, sget n (fm_fams m) = Some x).
  { intros g' l' n H1 H2. apply elem_sget in H1; [|done]. destruct (Hc g' l' n H1 H2) as [x Hx]. exists x. by apply elem_sget. }
  assert (Hap' : forall g l' n x, sget g (fm_grps m) = Some l' -> n ∈ l' -> sget n (fm_fams m) = Some x -> x <> 0 /\ forall l l'', in_field m l x -> in_field m l'' x -> l = l'').
  { intros g' l' n x H1 H2 H3. apply elem_sget in H1; [|done]. apply elem_sget in H3; [|done]. apply Hap with n. by exists g', l'. }
  destruct (loop_ok m sg mx ids a famIds others) with (diff := diff) as ([[[[W F] G] fs] M] & -> & Hinv); try done.
  { destruct isNode; [by left|by right]. }
  { lia. }
  { intros x Hx. by apply (Hma l), Hina. }
  { intros o x Ho Hx. assert (oth others x) as (l' & _ & Hf)%Hoth by (by exists o). by apply (Hma l'). }
  { intros g' l' n x H1 H2 H3. destruct (Hap' g' l' n x H1 H2 H3) as [H4 H5]. split; [done|]. intros H6 (l2 & Hne & Hf)%Hoth. apply Hne. apply H5; [done|by apply Hina]. }
  { intros x Hx. destruct (Hbd l x (Hina x Hx)) as [?|(n & id & Hid & ?)]; [by left|]. right. exists n, id. split; [by apply elem_sget|done]. }
  { by apply increasing_nodup. }
  { intros f Hf. by apply Hdin. }
  cbn [bind]. destruct Hinv as (ak & I1 & I2 & I3 & I4 & I5 & I6 & I7 & I8 & I9 & I10 & [I14 I11] & I12 & I13). rewrite I1. cbn [bind wp]. split; [done|].
  set (Gn := match sget g G with Some fs0 => sput g (fs0 ++ fs) G | None => sput g fs G end).
  assert (HGn : ordered Gn) by (unfold Gn; destruct (sget g G); by apply ordered_sput).
  assert (HGg : sget g Gn = Some (default [] (sget g G) ++ fs)). { unfold Gn. destruct (sget g G); rewrite sget_sput, bool_decide_eq_true_2; done. }
  assert (HGo : forall g', g' <> g -> sget g' Gn = sget g' G). { intros g' Hne. unfold Gn. destruct (sget g G); rewrite sget_sput, bool_decide_eq_false_2; done. }
  assert (Hv' : valid (putFam l (Some ak) (withMaps m F Gn))). { apply (valid_put m F Gn l ak nb); try done. lia. }
  assert (Hfl1 : fieldOf l (putFam l (Some ak) (withMaps m F Gn)) = Some ak).
  { rewrite fieldOf_putFam by done. rewrite Z.eqb_refl. apply has_level_iff in Hlv as (v & Ev & _); [|done]. change (findLev l (withMaps m F Gn)) with (findLev l m). by rewrite Ev. }
  assert (Hfl2 : forall l', l' <> l -> fieldOf l' (putFam l (Some ak) (withMaps m F Gn)) = fieldOf l' m).
  { intros l' Hne. rewrite fieldOf_putFam by done. by destruct (Z.eqb_spec l' l). }
  assert (Hab : forall e x, a @ e = Some x -> exists y, ak @ e = Some y). { intros e x Hx. apply zlook_lt. apply zlook_Some_lt in Hx. lia. }
  assert (Hba : forall e y, ak @ e = Some y -> exists x, a @ e = Some x). { intros e x Hx. apply zlook_lt. apply zlook_Some_lt in Hx. lia. }
  assert (Hothm : forall x, oth others x -> Z.abs x <= mx). { intros x (l' & _ & Hx)%Hoth. by apply (Hma l'). }
  (* the new families *)
  assert (Hfs : forall e x y, a @ e = Some x -> ak @ e = Some y -> inG F fs y <-> e ∈ ids).
  { intros e x y Hx Hy. destruct (decide (x ∈ diff)) as [Hdx|Hdx].
    - destruct (I10 e x Hx Hdx) as (y' & Hy' & _ & Hi). by replace y with y' by congruence.
    - rewrite (I9 e x Hx Hdx) in Hy. injection Hy as <-. split.
      + intros (n & Hnf & Hnx). destruct (I11 n Hnf) as (x' & Hx' & _ & _ & Hor & _). assert (x' = x) by congruence. subst x'. exfalso.
        destruct Hor as [?|?]; [done|]. apply zlook_elem in Hx. apply Hina, (Hma l) in Hx. lia.
      + intros He. exfalso. apply Hdx, Hdin. eauto. }
  assert (Hfs' : forall x, oth others x -> ~ inG F fs x).
  { intros x Hx (n & Hnf & Hnx). destruct (I11 n Hnf) as (x' & Hx' & _ & Hno' & _). assert (x' = x) by congruence. by subst x'. }
  (* a group other than g *)
  assert (Hold : forall g' l' e, member m l' g' e <-> exists lst b x, sget g' G = Some lst /\ fieldOf l' (putFam l (Some ak) (withMaps m F Gn)) = Some b /\ b @ e = Some x /\ inG F lst x).
  { intros g' l' e. rewrite member_iff by done. specialize (I13 g'). destruct (sget g' (fm_grps m)) as [l0|] eqn:E0, (sget g' G) as [l1|] eqn:E1; try done.
    2:{ split; intros (? & ? & ? & ? & _); done. }
    destruct I13 as (K1 & K2 & K3 & _). destruct (decide (l' = l)) as [->|Hne].
    - rewrite Hfl1, Ha. split.
      + intros (? & ? & x & [= <-] & [= <-] & Hx & Hi). destruct (Hab e x Hx) as [y Hy]. exists l1, ak, y. do 3 (split; [done|]). by apply (K2 e x y).
      + intros (? & ? & y & [= <-] & [= <-] & Hy & Hi). destruct (Hba e y Hy) as [x Hx]. exists l0, a, x. do 3 (split; [done|]). by apply (K2 e x y).
    - rewrite Hfl2 by done. assert (Hox : forall b x, fieldOf l' m = Some b -> b @ e = Some x -> oth others x).
      { intros b x Hb Hx. apply Hoth. exists l'. split; [done|]. apply in_field_iff; [done|]. exists b. split; [done|]. by apply zlook_elem in Hx. }
      split; intros (? & b & x & [= <-] & Hb & Hx & Hi); [exists l1, b, x|exists l0, b, x]; do 3 (split; [done|]); apply (K3 x); eauto. }
  split.
  - (* contents *)
    split; [|split; [|split]].
    + intros e. rewrite member_iff by done. cbn [fm_grps fm_fams putFam withMaps]. rewrite HGg. rewrite Hfl1. split.
      * intros (? & ? & y & [= <-] & [= <-] & Hy & [Hi|Hi]%inG_app).
        -- exfalso. apply (Hno e). apply Hold. destruct (sget g G) as [l1|]; cbn in Hi; [|by destruct Hi as (n & ?%elem_of_nil & _)]. exists l1, ak, y. done.
        -- destruct (Hba e y Hy) as [x Hx]. by apply (Hfs e x y).
      * intros He. destruct (zlook_lt a e (Hids e He)) as [x Hx]. destruct (Hab e x Hx) as [y Hy]. do 2 eexists. exists y. do 3 (split; [done|]).
        apply inG_app. right. by apply (Hfs e x y).
    + intros l' g' e Hne. rewrite (Hold g' l' e), member_iff by done. cbn [fm_grps fm_fams putFam withMaps]. destruct (decide (g' = g)) as [->|Hg].
      * rewrite HGg. assert (Hl' : l' <> l) by tauto. split.
        -- intros (? & b & x & [= <-] & Hb & Hx & Hi). apply inG_app in Hi as [Hi|Hi].
           ++ destruct (sget g G) as [l1|]; cbn in Hi; [|by destruct Hi as (n & ?%elem_of_nil & _)]. by exists l1, b, x.
           ++ exfalso. apply (Hfs' x); [|done]. apply Hoth. exists l'. split; [done|]. rewrite Hfl2 in Hb by done. apply in_field_iff; [done|]. exists b. split; [done|]. by apply zlook_elem in Hx.
        -- intros (l1 & b & x & -> & Hb & Hx & Hi). do 2 eexists. exists x. split; [done|]. do 2 (split; [done|]). apply inG_app. by left.
      * rewrite HGo by done. done.
    + intros g'. rewrite !has_group_iff by done. cbn [fm_grps putFam withMaps]. specialize (I13 g'). destruct (decide (g' = g)) as [->|Hg].
      * rewrite HGg. split; [by right|eauto].
      * rewrite HGo by done. destruct (sget g' (fm_grps m)), (sget g' G); try done; split; [intros _; left; eauto|eauto|by intros [??]|intros [[??]|?]; done].
    + apply levels_put.
  - split.
    2:{ intros Hnr g' lst Hg. apply (elem_sget Gn) in Hg; [|done].
        assert (HG1 : forall g1 l1, sget g1 G = Some l1 -> NoDup l1).
        { intros g1 l1 Hg1. specialize (I13 g1). rewrite Hg1 in I13. destruct (sget g1 (fm_grps m)) as [l0|] eqn:E0; [|done]. apply I13. apply elem_sget in E0; [|done]. by apply (Hnr g1). }
        destruct (decide (g' = g)) as [->|Hne]; [|rewrite HGo in Hg by done; by apply (HG1 g')]. rewrite HGg in Hg. injection Hg as <-.
        destruct (sget g G) as [l1|] eqn:E1; [|done]. apply NoDup_app. split; [by apply (HG1 g)|]. split; [|done]. cbn [default]. intros n Hn1 Hn2.
        destruct (I11 n Hn2) as (x & Hx & _ & _ & _ & e & He & Hak). apply (Hno e). apply Hold. exists l1, ak, x. do 3 (split; [done|]). by exists n. }
    assert (Hcls : forall g' lst n, sget g' Gn = Some lst -> n ∈ lst ->
      exists x, sget n F = Some x /\ x <> 0 /\ (~ oth others x \/ forall l1 l2, in_field m l1 x -> in_field m l2 x -> l1 = l2)).
    { assert (Hc1 : forall g' lst n, sget g' G = Some lst -> n ∈ lst ->
        exists x, sget n F = Some x /\ x <> 0 /\ (~ oth others x \/ forall l1 l2, in_field m l1 x -> in_field m l2 x -> l1 = l2)).
      { intros g' lst n Hg Hin. specialize (I13 g'). rewrite Hg in I13. destruct (sget g' (fm_grps m)) as [l0|] eqn:E0; [|done]. destruct I13 as (K1 & _).
        destruct (K1 n Hin) as (x & Hx & [Hl0|Hbig]); exists x; (split; [done|]).
        - destruct (Hcl' g' l0 n E0 Hl0) as [x' Hx']. assert (x' = x) by (apply I7 in Hx'; congruence). subst x'. destruct (Hap' g' l0 n x E0 Hl0 Hx') as [? ?]. tauto.
        - split; [lia|]. left. intros Ho. apply Hothm in Ho. lia. }
      intros g' lst n Hg Hin. destruct (decide (g' = g)) as [->|Hne]; [|rewrite HGo in Hg by done; by apply (Hc1 g' lst n)].
      rewrite HGg in Hg. injection Hg as <-. apply elem_of_app in Hin as [Hin|Hin].
      - destruct (sget g G) as [l1|] eqn:E; [by apply (Hc1 g l1 n)|by apply elem_of_nil in Hin].
      - destruct (I11 n Hin) as (x & ? & ? & ? & _). exists x. tauto. }
    assert (Hfld : forall l' x, in_field (putFam l (Some ak) (withMaps m F Gn)) l' x -> (l' = l /\ mx < Z.abs x) \/ in_field m l' x).
    { intros l' x Hx. apply in_field_iff in Hx as (b & Hb & Hx); [|done]. destruct (decide (l' = l)) as [->|Hne].
      - rewrite Hfl1 in Hb. injection Hb as <-. apply elem_of_zlook in Hx as [e He]. destruct (Hba e x He) as [x0 Hx0]. destruct (decide (x0 ∈ diff)) as [Hdx|Hdx].
        + destruct (I10 e x0 Hx0 Hdx) as (y & Hy & Hor & _). assert (y = x) by congruence. subst y. destruct Hor as [[-> _]|?]; [right; apply Hina; by apply zlook_elem in Hx0|left; lia].
        + rewrite (I9 e x0 Hx0 Hdx) in He. injection He as <-. right. apply Hina. by apply zlook_elem in Hx0.
      - right. rewrite Hfl2 in Hb by done. apply in_field_iff; eauto. }
    split; [done|]. split; [|split; [|split; [|split]]].
    + intros g' lst n Hg Hin. apply elem_sget in Hg; [|done]. destruct (Hcls g' lst n Hg Hin) as (x & Hx & _). exists x. by apply (elem_sget F).
    + intros n n' x H1 H2. apply (elem_sget F) in H1; [|done]. apply (elem_sget F) in H2; [|done]. by apply (I6 n n' x).
    + intros n x (g' & lst & Hg & Hin & Hx). apply (elem_sget Gn) in Hg; [|done]. apply (elem_sget F) in Hx; [|done].
      destruct (Hcls g' lst n Hg Hin) as (x' & Hx' & H0 & Hor). assert (x' = x) by congruence. subst x'. split; [done|].
      assert (Hbig : forall l', mx < Z.abs x -> ~ in_field m l' x). { intros l' Hb Hf. apply (Hma l') in Hf. lia. }
      intros l1 l2 [[-> Hb1]|Hf1]%Hfld [[-> Hb2]|Hf2]%Hfld; [done|by apply Hbig in Hf2|by apply Hbig in Hf1|].
      destruct Hor as [Hor|Hor]; [|by apply Hor]. destruct (decide (l1 = l)) as [->|N1], (decide (l2 = l)) as [->|N2]; [done|exfalso; apply Hor, Hoth; eauto..].
    + intros l' x Hx. apply in_field_iff in Hx as (b & Hb & Hx); [|done]. destruct (decide (l' = l)) as [->|Hne].
      * rewrite Hfl1 in Hb. injection Hb as <-. destruct (I12 x Hx) as [?|(n & id & ? & ?)]; [by left|]. right. exists n, id. split; [by apply (elem_sget F)|done].
      * rewrite Hfl2 in Hb by done. destruct (Hbd l' x) as [?|(n & id & Hid & ?)]; [apply in_field_iff; eauto|by left|]. right. exists n, id. split; [|done].
        apply (elem_sget F); [done|]. apply I7. by apply elem_sget in Hid.
    + intros l' nb' Hl'. apply (Hp l'). by apply (levels_put m F Gn l (Some ak)).
Qed.

Lemma acceptable_same m m1 l g ids : same_content m m1 -> same_levels m m1 -> acceptable m1 l g ids <-> acceptable m l g ids.
Proof.
  intros Hs Hl. unfold acceptable. split; intros ((nb & H1 & H2) & H3 & H4 & H5); (split; [exists nb; split; [by apply Hl|done]|]); (split; [done|]); (split; [done|]); intros e He; apply (H5 e); by apply Hs.
Qed.
Theorem addGroup_wp m l g ids : coherent m ->
  wp (addGroup l (Some (g, vec ids)) m) (fun m' => acceptable m l g ids /\ group_added m l g ids m' /\ coherent m' /\ (no_repeat m -> no_repeat m')) (~ acceptable m l g ids).
Proof.
  intros Hco. unfold addGroup. pose proof Hco as (Hv & _). destruct (findLev l m) as [v|] eqn:El.
  2:{ cbn [wp]. intros ((nb & Hl & _) & _). apply has_level_iff in Hl as (v & E & _); [|done]. congruence. }
  destruct (created_ok m l v _ Hco El eq_refl) as (C1 & C2 & C3 & C4 & C5). cbn zeta. set (a := match lv_fam v with Some a => a | None => _ end) in *.
  assert (HL : has_level m l (lv_nb v)) by (apply has_level_iff; eauto).
  eapply wp_mono; [apply (underground_wp (putFam l (Some a) m) l g ids a (l =? 1) (lv_nb v)); try done; by apply C3| |].
  - intros m' (A & (B1 & B2 & B3 & B4) & Hc' & Hnr'). split; [by apply (acceptable_same m (putFam l (Some a) m))|]. split; [|done]. split; [done|]. split; [|split].
    + intros l' g' e Hne. rewrite (B2 l' g' e Hne). apply C2.
    + done.
    + intros l' nb. rewrite (C3 l' nb). apply B4.
  - intros Hn Ha. apply Hn. by apply (acceptable_same m).
Qed.
Lemma addGroup_bad m l o : match o with Some (_, d) => da_alloc d = false \/ da_nc d <> 1 | None => True end -> addGroup l o m = Throw.
Proof.
  intros H. unfold addGroup. destruct (findLev l m) as [v|]; [|done]. cbn zeta. unfold addGroupUnderground. destruct o as [[g d]|]; [|done].
  case_bool_decide; [done|]. cbn [ifthrow]. unfold isStrictlyMonotonic, checkAllocated, checkOneComp. destruct (da_alloc d); cbn; [|done].
  destruct H as [H|H]; [done|]. destruct (Z.eqb_spec (da_nc d) 1); [done|]. done.
Qed.
