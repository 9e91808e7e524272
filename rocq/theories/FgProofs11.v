(** setGroupsAtLevel. *)
From stdpp Require Import strings.
From Coq Require Import ZifyBool ZifyNat.
From Verif Require Import Base DataArray StdModel StdProofs ArrLib RenumModel RenumSpec RenumProofs PermProofs SearchModel SearchSpec SearchProofs SetsModel SetsProofs PartModel PartSpec PartProofs8 FgModel FgModel2 FgSpec FgSpec2 FgProofs FgProofs2 FgProofs3 FgProofs4 FgProofs5 FgProofs6 FgProofs7 FgProofs8.

Lemma sset_nodup l : NoDup (sset l).
Proof.
  apply ordered_nodup. assert (G : forall s : list (string * unit), ordered s -> ordered (foldl (fun s k => sput k tt s) s l)); [|apply G; constructor].
  induction l as [|x l IH]; intros s Hs; [done|]. cbn [foldl]. apply IH. by apply ordered_sput.
Qed.
Lemma sset_len l : zlen (sset l) = zlen l <-> NoDup l.
Proof.
  unfold zlen. assert (Hs : sset l ⊆+ l) by (apply NoDup_submseteq; [apply sset_nodup|]; intros x; apply elem_sset). split.
  - intros E. assert (El : (length l <= length (sset l))%nat) by lia. rewrite <- (submseteq_Permutation_length_le _ _ El Hs). apply sset_nodup.
  - intros Hn. f_equal. apply Permutation_length. apply NoDup_Permutation; [apply sset_nodup|done|apply elem_sset].
Qed.
Lemma tr_ok offset mx : 0 <= mx -> offset = mx + 1 \/ offset = - (mx + 1) -> (forall x, 1 <= x -> mx < Z.abs (translate offset x)) /\ forall x y, translate offset x = translate offset y -> x = y.
Proof. intros H0 H. unfold translate. split; [intros x|intros x y]; destruct (Z.ltb_spec 0 offset); lia. Qed.
Lemma newFams_ok ids F : ordered F -> let F' := foldl (fun f id => sput (familyName id) id f) F ids in
  ordered F' /\ (forall id, id ∈ ids -> sget (familyName id) F' = Some id) /\ forall n, (forall id, id ∈ ids -> n <> familyName id) -> sget n F' = sget n F.
Proof.
  cbn zeta. revert F. induction ids as [|i ids IH]; intros F HF; cbn [foldl].
  - split; [done|]. split; [intros ? ?%elem_of_nil; done|done].
  - destruct (IH (sput (familyName i) i F) (ordered_sput _ _ _ HF)) as (I1 & I2 & I3). split; [done|]. split.
    + intros id Hid. destruct (decide (id ∈ ids)) as [?|Hn]; [by apply I2|]. apply elem_of_cons in Hid as [->|?]; [|done]. rewrite I3; [by rewrite sget_sput, bool_decide_eq_true_2|].
      intros id Hid E%familyName_inj. congruence.
    + intros n Hn. rewrite I3; [|intros id ?; apply Hn; by right]. rewrite sget_sput, bool_decide_eq_false_2; [done|]. apply Hn. left.
Qed.
Definition nm (ids : list Z) (id : Z) : string := if bool_decide (id ∈ ids) then familyName id else "".
Lemma push_ok ids g fids gs : ordered gs -> let gs' := foldl (fun gs id => sput g (default [] (sget g gs) ++ [nm ids id]) gs) gs fids in
  ordered gs' /\ (forall g', g' <> g -> sget g' gs' = sget g' gs) /\ sget g gs' = match fids with [] => sget g gs | _ => Some (default [] (sget g gs) ++ (nm ids <$> fids)) end.
Proof.
  cbn zeta. revert gs. induction fids as [|i fids IH]; intros gs Hgs; cbn [foldl]; [done|].
  destruct (IH (sput g (default [] (sget g gs) ++ [nm ids i]) gs) (ordered_sput _ _ _ Hgs)) as (I1 & I2 & I3). split; [done|]. split.
  - intros g' Hg. rewrite (I2 g' Hg), sget_sput, bool_decide_eq_false_2; done.
  - rewrite I3, sget_sput, bool_decide_eq_true_2 by done. destruct fids; [done|]. cbn [default]. cbn [fmap list_fmap]. unfold id. by rewrite <- app_assoc.
Qed.
Lemma pushes_ok ids L gs : NoDup L.*1 -> ordered gs -> let gs' := foldl (fun gs '(g, fids) => foldl (fun gs id => sput g (default [] (sget g gs) ++ [nm ids id]) gs) gs fids) gs L in
  ordered gs' /\ (forall g', g' ∉ L.*1 -> sget g' gs' = sget g' gs) /\
  forall g fids, (g, fids) ∈ L -> sget g gs' = match fids with [] => sget g gs | _ => Some (default [] (sget g gs) ++ (nm ids <$> fids)) end.
Proof.
  cbn zeta. revert gs. induction L as [|[g fids] L IH]; intros gs Hn Hgs; cbn [foldl].
  - split; [done|]. split; [done|]. intros g fids ?%elem_of_nil. done.
  - rewrite fmap_cons in Hn. apply NoDup_cons in Hn as [Hg Hn]. cbn [fst] in Hg. destruct (push_ok ids g fids gs Hgs) as (P1 & P2 & P3).
    destruct (IH _ Hn P1) as (I1 & I2 & I3). split; [done|]. rewrite fmap_cons. cbn [fst]. split.
    + intros g' [Hne Hg']%not_elem_of_cons. rewrite (I2 g' Hg'). by apply P2.
    + intros g' fids' [[= -> ->]|Hin]%elem_of_cons; [rewrite (I2 g Hg); exact P3|]. rewrite (I3 g' fids' Hin), P2; [done|]. intros ->. apply Hg. apply elem_of_list_fmap. by exists (g, fids').
Qed.
Lemma maxAbs_ok m : ordered (fm_fams m) -> exists mx, match fm_fams m with [] => Ok 1 | _ => let* mx := getMaxAbsFamilyId m in Ok (mx + 1) end = Ok (mx + 1) /\ 0 <= mx /\ forall n x, sget n (fm_fams m) = Some x -> Z.abs x <= mx.
Proof.
  intros HF. unfold getMaxAbsFamilyId. destruct (fm_fams m) as [|p F] eqn:E; [by exists 0|]. cbn [bind]. eexists. split; [reflexivity|].
  destruct (famMax_ok (p :: F) lowest) as [H1 H2]. split; [|intros n x Hx; apply elem_sget in Hx; [|done]; by apply H2 in Hx]. destruct p as [n x]. specialize (H2 n x (elem_of_list_here _ _)). lia.
Qed.
Lemma zip_lookup {A B} (l : list A) (k : list B) i x : zip l k @ i = Some x <-> l @ i = Some x.1 /\ k @ i = Some x.2.
Proof.
  unfold zlook. destruct (i <? 0); [naive_solver|]. destruct x as [a b]. cbn [fst snd]. rewrite lookup_zip_with_Some. split; [intros (? & ? & [= -> ->] & ? & ?); done|]. intros [? ?]. eauto.
Qed.
Theorem setGroupsAtLevel_wp m l named : coherent m -> unclaimed m -> (forall nb, has_level m l nb -> nb <= 2147483647) -> named <> [] ->
  wp (setGroupsAtLevel l ((fun p : string * list Z => Some (p.1, vec p.2)) <$> named) m)
    (fun m' => groups_fit m l named /\ groups_set m l named m' /\ coherent m' /\ unclaimed m') (~ groups_fit m l named).
Proof.
  intros (Hv & Hcl & Hd & Hap & Hbd & Hpos) Hun Hsz Hne. pose proof Hv as (HF & HG & Hn & Hnb & Hlen). unfold setGroupsAtLevel.
  set (grps := (fun p : string * list Z => Some (p.1, vec p.2)) <$> named).
  replace (match grps with [] => Ok m | _ :: _ => _ end) with (
    throw_if negb (zlen (sset named.*1) =? zlen named) >>>
    throw_if inS "" named.*1 >>>
    match findLev l m with
    | None => Throw
    | Some v =>
      let* (fam, fids) := MakePartition (Some <$> ((fun p : string * list Z => vec p.2) <$> named)) (lv_nb v) in
      let* fam := foldM (fun r x => match x with Some x => Ok (r ++ [x]) | None => UB end) fam [] in
      let* offset := match fm_fams m with [] => Ok 1 | _ => let* mx := getMaxAbsFamilyId m in Ok (mx + 1) end in
      let tr := translate (if l =? 1 then offset else - offset) in
      let fam := tr <$> fam in
      let fids := (fun f : list Z => tr <$> f) <$> fids in
      let* ids := getDifferentValues (vec fam) in
      Ok (putFam l (Some fam) (appendFamilyEntries ids fids named.*1 m))
    end).
  2: { assert (E0 : existsb (fun o : option (string * da Z) => match o with None => true | Some _ => false end) grps = false) by (unfold grps; clear; induction named as [|p L IH]; [done|exact IH]).
    assert (E1 : omap id grps = (fun p : string * list Z => (p.1, vec p.2)) <$> named). { unfold grps. clear. induction named as [|p L IH]; [done|]. cbn. f_equal. exact IH. }
    assert (E2 : grps <> []) by (unfold grps; by destruct named). destruct grps as [|o grps'] eqn:Eg; [done|]. rewrite E0. cbn [ubif]. rewrite E1. cbn zeta.
    rewrite <- !list_fmap_compose. unfold compose. cbn [fst snd]. rewrite <- Eg. unfold grps. rewrite zlen_fmap. done. }
  assert (E1 : zlen (sset named.*1) =? zlen named = bool_decide (NoDup named.*1)).
  { pose proof (sset_len named.*1) as H. rewrite zlen_fmap in H. destruct (bool_decide_reflect (NoDup named.*1)) as [Hx|Hx]; [apply H in Hx; lia|]. apply Z.eqb_neq. tauto. }
  rewrite E1. clear E1. destruct (bool_decide_reflect (NoDup named.*1)) as [Hnd|Hnd]; cbn [negb ifthrow wp]; [|intros [? _]; done].
  unfold inS. destruct (bool_decide_reflect ("" ∈ named.*1)) as [He|He]; cbn [ifthrow wp]; [intros (_ & ? & _); done|].
  destruct (findLev l m) as [v|] eqn:Ev; cbn [wp]. 2: { intros (_ & _ & nb & Hl & _). apply has_level_iff in Hl as (v & ? & _); [congruence|done]. }
  assert (Hlv : has_level m l (lv_nb v)) by (apply has_level_iff; [done|]; eauto).
  set (arrs := (fun p : string * list Z => vec p.2) <$> named).
  assert (Hom : omap id (Some <$> arrs) = arrs). { clear. induction arrs as [|a L IH]; [done|]. cbn. f_equal. exact IH. }
  assert (Hel : forall d, d ∈ arrs <-> exists g ids, (g, ids) ∈ named /\ d = vec ids). { intros d. unfold arrs. rewrite elem_of_list_fmap. split; [intros ([g ids] & -> & ?)|intros (g & ids & ? & ->); exists (g, ids)]; eauto. }
  assert (Hsz' : 0 <= lv_nb v <= 2147483647). { split; [apply findLev_Some in Ev as [? _]; [by apply Hnb|done]|by apply Hsz]. }
  destruct (decide (Forall (fun d : da Z => Forall (fun e => 0 <= e < lv_nb v) (da_vals d)) arrs)) as [Hr|Hr].
  2: { assert (MakePartition (Some <$> arrs) (lv_nb v) = Throw) as ->.
    { apply partition_throw; [done|]. apply not_Forall_Exists in Hr; [|apply _]. apply Exists_exists in Hr as (d & Hd' & Hr). exists d. split; [apply elem_of_list_fmap; eauto|].
      apply not_Forall_Exists in Hr; [|apply _]. apply Exists_exists in Hr as (e & ? & ?). exists e. by split. }
    cbn [bind wp]. intros (_ & _ & nb & Hl & Hin). apply Hr. apply Forall_forall. intros d (g & ids & Hg & ->)%Hel. apply Forall_forall. intros e He'. cbn [vec da_vals] in He'.
    assert (nb = lv_nb v) as <-; [|by eapply Hin]. apply has_level_iff in Hl as (w & ? & ?); [congruence|done]. }
  assert (Hfit : groups_fit m l named). { split; [done|]. split; [done|]. exists (lv_nb v). split; [done|]. intros g ids e Hg He'. rewrite Forall_forall in Hr. specialize (Hr (vec ids) (proj2 (Hel _) (ex_intro _ g (ex_intro _ ids (conj Hg eq_refl))))). rewrite Forall_forall in Hr. by apply Hr. }
  destruct (partition_ok (Some <$> arrs) (lv_nb v) Hsz') as (fam & fids & -> & P1 & _ & (K & HK & PK) & _ & P4 & P5).
  { rewrite Hom. intros d e Hdd Hee. rewrite Forall_forall in Hr. specialize (Hr d Hdd). rewrite Forall_forall in Hr. by apply Hr. }
  rewrite Hom in P4, P5. cbn [bind]. rewrite unwrap_ok. cbn [bind]. destruct (maxAbs_ok m HF) as (mx & -> & Hmx & Hmax). cbn [bind]. cbn zeta.
  set (off := if l =? 1 then mx + 1 else - (mx + 1)). destruct (tr_ok off mx Hmx) as [T1 T2]; [unfold off; destruct (l =? 1); tauto|]. set (tr := translate off) in *.
  destruct (differentValues_ok (vec (tr <$> fam)) eq_refl) as (ids & -> & _ & Hids). cbn [bind wp]. cbn [vec da_vals] in Hids.
  assert (Hfam1 : forall x, x ∈ fam -> 1 <= x) by (intros x Hx%PK; lia).
  assert (Hids' : forall y, y ∈ ids <-> exists x, x ∈ fam /\ y = tr x). { intros y. rewrite Hids, elem_of_list_fmap. naive_solver. }
  assert (Hnew : forall y, y ∈ ids -> mx < Z.abs y). { intros y (x & Hx & ->)%Hids'. by apply T1, Hfam1. }
  set (fids' := (fun f : list Z => tr <$> f) <$> fids).
  assert (Lf : zlen fids' = zlen named.*1) by (unfold fids'; rewrite !zlen_fmap; rewrite P4; unfold arrs; by rewrite zlen_fmap).
  assert (Hzk : (zip named.*1 fids').*1 = named.*1). { apply fst_zip. unfold zlen in Lf. lia. }
  unfold appendFamilyEntries. set (F' := foldl (fun f id => sput (familyName id) id f) (fm_fams m) ids). destruct (newFams_ok ids (fm_fams m) HF) as (F1 & F2 & F3). fold F' in F1, F2, F3.
  set (G' := foldl _ (fm_grps m) (zip named.*1 fids')). destruct (pushes_ok ids (zip named.*1 fids') (fm_grps m)) as (G1 & G2 & G3); [by rewrite Hzk|done|].
  change (foldl _ (fm_grps m) (zip named.*1 fids')) with G' in G1, G2, G3. rewrite Hzk in G2.
  (* the ids of the families of a group *)
  assert (Hgrp : forall g es, (g, es) ∈ named -> exists fl, (forall y, y ∈ fl -> y ∈ ids) /\ (fl = [] <-> es = []) /\
    sget g G' = match fl with [] => sget g (fm_grps m) | _ => Some (default [] (sget g (fm_grps m)) ++ (familyName <$> fl)) end /\
    forall e, e ∈ es <-> exists y, (tr <$> fam) @ e = Some y /\ y ∈ fl).
  { intros g es Hg. apply elem_of_zlook in Hg as (k & Hk). assert (Ha : arrs @ k = Some (vec es)) by (unfold arrs; by rewrite zlook_fmap, Hk).
    destruct (P5 k (vec es) Ha) as (fl & Hfl & [_ He1] & He2). cbn [vec da_vals] in He1, He2.
    assert (Hfl' : forall f, f ∈ fl -> f ∈ fam) by (intros f (e & _ & Hf)%He1; apply elem_of_zlook; eauto).
    exists (tr <$> fl). split; [|split; [|split]].
    - intros y (f & -> & Hf)%elem_of_list_fmap. apply Hids'. eauto.
    - assert (Ez : tr <$> fl = [] <-> fl = []) by (by destruct fl). rewrite Ez. split.
      + intros ->. destruct es as [|e es]; [done|]. destruct (He2 e) as [Hx _]. destruct Hx as (f & _ & ?%elem_of_nil); [left|done].
      + intros ->. destruct fl as [|f fl]; [done|]. destruct (He1 f) as [Hx _]. destruct Hx as (e & ?%elem_of_nil & _); [left|done].
    - rewrite (G3 g (tr <$> fl)).
      + destruct fl as [|f fl]; [done|]. cbn [fmap list_fmap]. do 2 f_equal. f_equal; [unfold nm; rewrite bool_decide_eq_true_2; [done|apply Hids'; exists f; split; [apply Hfl'; left|done]]|].
        rewrite <- !list_fmap_compose. apply list_fmap_ext. intros i x Hx. unfold compose, nm. rewrite bool_decide_eq_true_2; [done|]. apply Hids'. exists x. split; [|done]. apply Hfl'. right. by eapply elem_of_list_lookup_2.
      + apply elem_of_zlook. exists k. apply zip_lookup. cbn [fst snd]. rewrite zlook_fmap, Hk. unfold fids'. rewrite zlook_fmap, Hfl. done.
    - intros e. rewrite He2. split.
      + intros (f & Hf & Hin). exists (tr f). rewrite zlook_fmap, Hf. split; [done|]. apply elem_of_list_fmap. eauto.
      + intros (y & Hy & (f & -> & Hf)%elem_of_list_fmap). rewrite zlook_fmap in Hy. destruct (fam @ e) as [f'|] eqn:Ef; [|done]. injection Hy as Hy. apply T2 in Hy as ->. eauto. }
  assert (Hold : forall n x, sget n (fm_fams m) = Some x -> sget n F' = Some x).
  { intros n x Hx. rewrite F3; [done|]. intros y Hy ->. destruct (Hun y x) as (n & z & Hz & Hle); [by apply elem_sget|]. apply elem_sget in Hz; [|done]. apply Hmax in Hz. specialize (Hnew y Hy). lia. }
  assert (Hnames : forall n x, sget n F' = Some x -> (sget n (fm_fams m) = Some x /\ Z.abs x <= mx) \/ (x ∈ ids /\ n = familyName x)).
  { intros n x Hx. destruct (decide (Exists (fun y => n = familyName y) ids)) as [Hx'|Hx'].
    - apply Exists_exists in Hx' as (y & Hy & ->). rewrite (F2 y Hy) in Hx. injection Hx as <-. by right.
    - left. rewrite F3 in Hx; [split; [done|by apply (Hmax n)]|]. intros y Hy ->. apply Hx', Exists_exists. eauto. }
  assert (Hnewn : forall y, y ∈ ids -> sget (familyName y) (fm_fams m) = None).
  { intros y Hy. destruct (sget (familyName y) (fm_fams m)) as [x|] eqn:E; [|done]. pose proof (Hold _ _ E) as E'. rewrite (F2 y Hy) in E'. injection E' as ->. apply Hmax in E. specialize (Hnew x Hy). lia. }
  (* families of a group afterwards *)
  assert (HG' : forall (g n : string), (exists fams : list string, sget g G' = Some fams /\ n ∈ fams) <-> (exists fams : list string, sget g (fm_grps m) = Some fams /\ n ∈ fams) \/ exists (es fl : list Z) (y : Z), (g, es) ∈ named /\ (forall e, e ∈ es <-> exists y, (tr <$> fam) @ e = Some y /\ y ∈ fl) /\ y ∈ fl /\ y ∈ ids /\ n = familyName y).
  { intros g n. destruct (decide (g ∈ named.*1)) as [Hg|Hg].
    - apply elem_of_list_fmap in Hg as ([g' es] & -> & Hg). cbn [fst]. destruct (Hgrp g' es Hg) as (fl & Q1 & _ & Q2 & Q3). rewrite Q2.
      assert (Huniq : forall es', (g', es') ∈ named -> es' = es).
      { intros es' Hes'. apply elem_of_zlook in Hg as (i & Hi), Hes' as (j & Hj). assert (i = j) as ->; [|congruence]. rewrite NoDup_zlook in Hnd. apply (Hnd i j g'); rewrite zlook_fmap; [by rewrite Hi|by rewrite Hj]. }
      split.
      + destruct fl as [|f fl]; [tauto|]. intros (fams & [= <-] & Hin). apply elem_of_app in Hin as [Hin|Hin].
        * left. destruct (sget g' (fm_grps m)) as [old|]; [|by apply elem_of_nil in Hin]. eauto.
        * right. change (n ∈ familyName <$> (f :: fl)) in Hin. apply elem_of_list_fmap in Hin as (y & -> & Hy). exists es, (f :: fl), y. split; [done|]. split; [done|]. split; [done|]. split; [by apply Q1|done].
      + intros [(fams & Hf & Hin)|(es' & fl' & y & Hes' & Hfl' & Hy & Hyi & ->)].
        * destruct fl as [|f fl]; [eauto|]. eexists. split; [done|]. rewrite Hf. apply elem_of_app. by left.
        * rewrite (Huniq es' Hes') in Hfl'. assert (Hyf : y ∈ fl).
          { apply Hids' in Hyi as (x & Hx & ->). apply elem_of_zlook in Hx as (e & Hxe). assert (Hye : (tr <$> fam) @ e = Some (tr x)) by (by rewrite zlook_fmap, Hxe).
            assert (He' : e ∈ es) by (apply Hfl'; eauto). apply Q3 in He' as (y & Hy' & ?). congruence. }
          destruct fl as [|f fl]; [by apply elem_of_nil in Hyf|]. eexists. split; [done|]. apply elem_of_app. right. apply elem_of_list_fmap. eauto.
    - rewrite (G2 g Hg). split; [tauto|]. intros [?|(es & ? & ? & Hes & _)]; [done|]. destruct Hg. apply elem_of_list_fmap. by exists (g, es). }
  set (m' := putFam l (Some (tr <$> fam)) (withMaps m F' G')).
  assert (Hzl : zlen (tr <$> fam) = lv_nb v) by (by rewrite zlen_fmap).
  assert (Hv' : valid m') by (by apply (valid_put m F' G' l _ (lv_nb v))).
  assert (Hfl : fieldOf l m' = Some (tr <$> fam)). { unfold m'. rewrite fieldOf_putFam by done. rewrite Z.eqb_refl. change (findLev l (withMaps m F' G')) with (findLev l m). by rewrite Ev. }
  assert (Hfo : forall l', l' <> l -> fieldOf l' m' = fieldOf l' m). { intros l' Hl'. unfold m'. rewrite fieldOf_putFam by done. replace (l' =? l) with false by lia. done. }
  assert (Hmem : forall l' g e, member m' l' g e <-> exists a x n, fieldOf l' m' = Some a /\ a @ e = Some x /\ sget n F' = Some x /\ exists fams, sget g G' = Some fams /\ n ∈ fams).
  { intros l' g e. rewrite member_iff by done. split; [intros (fams & a & x & ? & ? & ? & n & ? & ?); exists a, x, n; eauto 8|]. intros (a & x & n & ? & ? & ? & fams & ? & ?). exists fams, a, x. do 3 (split; [done|]). by exists n. }
  assert (Hl' : forall l' x, l' <> l -> in_field m' l' x <-> in_field m l' x). { intros l' x Hne'. rewrite !in_field_iff by done. by rewrite (Hfo l' Hne'). }
  assert (Hll : forall x, in_field m' l x <-> x ∈ ids). { intros x. rewrite in_field_iff, Hfl by done. rewrite Hids. naive_solver. }
  assert (Hsmall : forall l' x, in_field m l' x -> Z.abs x <= mx). { intros l' x [->|(n & id & Hi & Hle)]%Hbd; [lia|]. apply elem_sget in Hi; [|done]. apply Hmax in Hi. lia. }
  assert (Hcl' : forall g fams n, sget g (fm_grps m) = Some fams -> n ∈ fams -> exists x, sget n (fm_fams m) = Some x).
  { intros g fams n Hg Hnf. apply elem_sget in Hg; [|done]. destruct (Hcl g fams n Hg Hnf) as (x & Hx). exists x. by apply elem_sget. }
  split; [done|]. split; [|split].
  - split; [|split; [|split; [|apply (levels_put m F' G' l)]]].
    + intros g e. rewrite Hmem, Hfl. split.
      * intros (a & x & n & [= <-] & Hx & Hxn & Hg). assert (Hxi : x ∈ ids) by (apply Hids, elem_of_zlook; eauto). apply HG' in Hg as [(fams & Hf & Hnf)|(es & fl & y & H1 & H2 & H3 & H4 & ->)].
        -- exfalso. destruct (Hcl' g fams n Hf Hnf) as (z & Hz). rewrite (Hold n z Hz) in Hxn. injection Hxn as ->. apply Hmax in Hz. specialize (Hnew x Hxi). lia.
        -- exists es. split; [done|]. apply H2. rewrite (F2 y H4) in Hxn. injection Hxn as ->. eauto.
      * intros (es & Hg & He'). destruct (Hgrp g es Hg) as (fl & Q1 & _ & Q2 & Q3). pose proof He' as (y & Hy & Hyf)%Q3. exists (tr <$> fam), y, (familyName y). split; [done|]. split; [done|]. split; [by apply F2, Q1|].
        apply HG'. right. exists es, fl, y. split; [done|]. split; [done|]. split; [done|]. split; [by apply Q1|done].
    + intros l' g e Hne'. rewrite Hmem, (Hfo l' Hne'), member_iff by done. split.
      * intros (a & x & n & Ha & Hx & Hxn & Hg). assert (Hxs : Z.abs x <= mx) by (apply (Hsmall l'), in_field_iff; [done|]; exists a; split; [done|]; apply elem_of_zlook; eauto).
        destruct (Hnames n x Hxn) as [[Hxo _]|[Hxi _]]; [|specialize (Hnew x Hxi); lia].
        apply HG' in Hg as [(fams & Hf & Hnf)|(es & fl & y & H1 & H2 & H3 & H4 & ->)].
        -- exists fams, a, x. do 3 (split; [done|]). by exists n.
        -- exfalso. rewrite (Hnewn y H4) in Hxo. done.
      * intros (fams & a & x & Hf & Ha & Hx & n & Hnf & Hxn). exists a, x, n. do 2 (split; [done|]). split; [by apply Hold|]. apply HG'. left. eauto.
    + intros g. rewrite !has_group_iff by done. change (fm_grps m') with G'. destruct (decide (g ∈ named.*1)) as [Hg|Hg].
      * apply elem_of_list_fmap in Hg as ([g' es] & -> & Hg). cbn [fst]. destruct (Hgrp g' es Hg) as (fl & Q1 & Qe & Q2 & Q3). rewrite Q2. destruct fl as [|f fl].
        -- split; [tauto|]. intros [?|(es' & Hes' & Hne')]; [done|]. destruct Hne'.
           apply elem_of_zlook in Hg as (i & Hi), Hes' as (j & Hj). assert (i = j) as ->. { rewrite NoDup_zlook in Hnd. apply (Hnd i j g'); rewrite zlook_fmap; [by rewrite Hi|by rewrite Hj]. }
           assert (es' = es) as -> by congruence. by apply Qe.
        -- split; [|eauto]. intros _. right. exists es. split; [done|]. intros E. by apply Qe in E.
      * rewrite (G2 g Hg). split; [tauto|]. intros [?|(es & Hes & _)]; [done|]. destruct Hg. apply elem_of_list_fmap. by exists (g, es).
  - split; [done|]. split; [|split; [|split; [|split]]].
    + intros g fams n Hg Hnf. change (fm_grps m') with G' in Hg. change (fm_fams m') with F'. apply elem_sget in Hg; [|done]. destruct (HG' g n) as [Hx _]. destruct Hx as [(f0 & Hf & Hn0)|(es & fl & y & H1 & H2 & H3 & H4 & ->)]; [eauto| |].
      * destruct (Hcl' g f0 n Hf Hn0) as (x & Hx). exists x. apply elem_sget; [done|]. by apply Hold.
      * exists y. apply elem_sget; [done|]. by apply F2.
    + intros n n' x Hx Hx'. change (fm_fams m') with F' in Hx, Hx'. apply elem_sget in Hx, Hx'; [|done..]. destruct (Hnames n x Hx) as [[H1 H1']|[H1 ->]], (Hnames n' x Hx') as [[H2 H2']|[H2 ->]]; try done.
      * eapply Hd; apply elem_sget; eassumption.
      * specialize (Hnew x H2). lia.
      * specialize (Hnew x H1). lia.
    + intros n x (g & fams & Hg & Hnf & Hx). change (fm_grps m') with G' in Hg. change (fm_fams m') with F' in Hx. apply elem_sget in Hx, Hg; [|done..].
      destruct (Hnames n x Hx) as [[H1 H1']|[H1 ->]].
      * destruct (HG' g n) as [Hy _]. destruct Hy as [(f0 & Hf & Hn0)|(es & fl & y & _ & _ & _ & H4 & ->)]; [eauto| |by rewrite (Hnewn y H4) in H1].
        destruct (Hap n x) as [Hz Hu]. { exists g, f0. split; [by apply elem_sget|]. split; [done|]. by apply elem_sget. }
        split; [done|]. intros l1 l2 L1 L2. destruct (decide (l1 = l)) as [->|N1]; [apply Hll in L1; specialize (Hnew x L1); lia|]. destruct (decide (l2 = l)) as [->|N2]; [apply Hll in L2; specialize (Hnew x L2); lia|].
        apply Hl' in L1, L2; [|done..]. by apply Hu.
      * specialize (Hnew x H1). split; [lia|]. intros l1 l2 L1 L2.
        destruct (decide (l1 = l)) as [->|N1]; [|apply Hl' in L1; [|done]; apply Hsmall in L1; lia]. destruct (decide (l2 = l)) as [->|N2]; [done|]. apply Hl' in L2; [|done]. apply Hsmall in L2. lia.
    + intros l1 x L1. destruct (decide (l1 = l)) as [->|N1].
      * apply Hll in L1. right. exists (familyName x), x. split; [|lia]. apply elem_sget; [done|]. by apply F2.
      * apply Hl' in L1; [|done]. destruct (Hbd l1 x L1) as [?|(n & id & Hi & Hle)]; [by left|]. right. exists n, id. split; [|done]. apply elem_sget; [done|]. apply Hold. by apply elem_sget.
    + intros l1 nb Hx. apply (Hpos l1). by apply (levels_put m F' G' l (Some (tr <$> fam))).
  - intros y id Hx. change (fm_fams m') with F' in *. apply elem_sget in Hx; [|done]. destruct (Hnames _ _ Hx) as [[H1 _]|[H1 E]].
    + destruct (Hun y id) as (n & x & Hnx & Hle); [by apply elem_sget|]. exists n, x. split; [|done]. apply elem_sget; [done|]. apply Hold. by apply elem_sget.
    + apply familyName_inj in E as ->. exists (familyName id), id. split; [by apply elem_sget|lia].
Qed.

Definition rho (m : fmesh) (n : string) : string :=
  match getGroupsOnFamily n m with
  | [g] => match sget g (fm_grps m) with Some [_] => g | _ => n end
  | _ => n
  end.
Lemma rho_iff m n : ordered (fm_grps m) -> forall k, new_name m n k <-> k = rho m n.
Proof.
  intros HG. assert (Hal : forall g, alone m n g <-> getGroupsOnFamily n m = [g] /\ exists y, sget g (fm_grps m) = Some [y]).
  { intros g. unfold alone. split.
    - intros [H1 H2]. apply elem_sget in H1 as H1'; [|done]. split; [|by exists n]. pose proof (groupsOn_nodup m n HG) as Hnd.
      assert (Hall : forall g', g' ∈ getGroupsOnFamily n m <-> g' = g). { intros g'. rewrite groupsOn_iff by done. split; [intros (f & Hf & Hn); apply elem_sget in Hf; [|done]; by eapply H2|]. intros ->. exists [n]. split; [done|left]. }
      destruct (getGroupsOnFamily n m) as [|a [|b L]]; [specialize (proj2 (Hall g) eq_refl) as Hx; by apply elem_of_nil in Hx|f_equal; apply Hall; left|]. exfalso.
      assert (a = g) as -> by (apply Hall; left). assert (b = g) as -> by (apply Hall; right; left). apply NoDup_cons in Hnd as [Hnd _]. apply Hnd. left.
    - intros [H1 (y & Hy)]. assert (Hg : g ∈ getGroupsOnFamily n m) by (rewrite H1; left). apply groupsOn_iff in Hg as (f & Hf & Hn); [|done]. rewrite Hy in Hf. injection Hf as <-. apply elem_of_list_singleton in Hn as <-.
      split; [by apply elem_sget|]. intros g' f Hf Hn. assert (Hg' : g' ∈ getGroupsOnFamily n m) by (apply groupsOn_iff; [done|]; exists f; split; [by apply elem_sget|done]). rewrite H1 in Hg'. by apply elem_of_list_singleton in Hg'. }
  intros k. unfold new_name, rho. setoid_rewrite Hal.
  destruct (getGroupsOnFamily n m) as [|a [|b L]]; [|destruct (sget a (fm_grps m)) as [[|y [|y' f]]|] eqn:Ea|]; split; intros H.
  all: try (destruct H as [[H1 (z & H2)]|[H1 H2]]; try done; try congruence).
  all: try (right; split; [|done]; intros (g & H1 & z & H2); congruence).
  - exfalso. apply H1. exists a. split; [done|]. by exists y.
  - left. subst k. split; [done|]. by exists y.
Qed.
Theorem assign_wp m : valid m -> closed m -> wp (assignFamilyNameWithGroupName m)
  (fun m' => same_content m m' /\ same_levels m m' /\ (forall g, has_group m' g <-> has_group m g) /\ valid m' /\ closed m' /\
    (forall k x, (k, x) ∈ fm_fams m' <-> exists n, (n, x) ∈ fm_fams m /\ new_name m n k) /\
    (forall l x, in_field m' l x <-> in_field m l x))
  (exists n n' k x x', (n, x) ∈ fm_fams m /\ (n', x') ∈ fm_fams m /\ n <> n' /\ new_name m n k /\ new_name m n' k).
Proof.
  intros Hv Hc. pose proof Hv as (HF & HG & Hn & Hnb & Hlen). unfold assignFamilyNameWithGroupName. set (ρ := rho m).
  assert (Hρ : forall n k, new_name m n k <-> k = ρ n) by (intros n k; apply rho_iff; done).
  apply wp_bind. eapply (wp_foldM _ (fun pre s => ordered s.1 /\ (forall k x, sget k s.1 = Some x <-> exists n, (n, x) ∈ pre /\ k = ρ n) /\
    ordered s.2 /\ (forall g, sget g s.2 = (fun f : list string => (fun n => if bool_decide (n ∈ pre.*1) then ρ n else n) <$> f) <$> sget g (fm_grps m)) /\
    forall n n', n ∈ pre.*1 -> n' ∈ pre.*1 -> ρ n = ρ n' -> n = n')).
  - split; [constructor|]. split; [intros k x; split; [done|intros (n & ?%elem_of_nil & _); done]|]. split; [done|]. split; [|intros n n' ?%elem_of_nil; done].
    intros g. cbn [snd]. destruct (sget g (fm_grps m)) as [f|]; [|done]. cbn. f_equal. symmetry. apply list_fmap_id.
  - intros pre [n x] post [fams groups] Heq (I1 & I2 & I3 & I4 & I5). cbn [fst snd] in *.
    assert (Hnp : n ∉ pre.*1). { pose proof (ordered_nodup _ HF) as Hnd. rewrite Heq, fmap_app, fmap_cons in Hnd. apply NoDup_app in Hnd as (_ & Hnd & _). intros Hx. apply (Hnd n Hx). left. }
    assert (Hin : (n, x) ∈ fm_fams m) by (rewrite Heq; apply elem_of_app; right; left).
    assert (Hpre : forall k y, (k, y) ∈ pre -> (k, y) ∈ fm_fams m) by (intros k y ?; rewrite Heq; apply elem_of_app; by left).
    assert (Hkeys : ρ n ∈ fams.*1 <-> exists n' y, (n', y) ∈ pre /\ ρ n = ρ n').
    { rewrite elem_of_list_fmap. split; [intros ([k y] & E & Hk); cbn [fst] in E; subst k; apply elem_sget in Hk; [|done]; apply I2 in Hk as (n' & H1 & H2); eauto|].
      intros (n' & y & H1 & H2). exists (ρ n, y). split; [done|]. apply elem_sget; [done|]. apply I2. eauto. }
    assert (Hthrow : ρ n ∈ fams.*1 -> exists n n' k x x', (n, x) ∈ fm_fams m /\ (n', x') ∈ fm_fams m /\ n <> n' /\ new_name m n k /\ new_name m n' k).
    { intros (n' & y & H1 & H2)%Hkeys. exists n, n', (ρ n), x, y. split; [done|]. split; [by apply Hpre|]. split; [|by rewrite !Hρ]. intros ->. apply Hnp. apply elem_of_list_fmap. by exists (n', y). }
    assert (Hext : ρ n ∉ fams.*1 -> ordered (sput (ρ n) x fams) /\ (forall k y, sget k (sput (ρ n) x fams) = Some y <-> exists n', (n', y) ∈ pre ++ [(n, x)] /\ k = ρ n') /\
      forall n1 n2, n1 ∈ (pre ++ [(n, x)]).*1 -> n2 ∈ (pre ++ [(n, x)]).*1 -> ρ n1 = ρ n2 -> n1 = n2).
    { intros Hnk. split; [by apply ordered_sput|]. split.
      - intros k y. rewrite sget_sput. destruct (bool_decide_reflect (k = ρ n)) as [->|E].
        + split; [intros [= <-]; exists n; split; [apply elem_of_app; right; left|done]|]. intros (n' & [H1|[= -> ->]%elem_of_list_singleton]%elem_of_app & H2); [|done]. destruct Hnk. apply Hkeys. eauto.
        + rewrite I2. split; [intros (n' & H1 & ->); exists n'; split; [apply elem_of_app; by left|done]|]. intros (n' & [H1|[= -> ->]%elem_of_list_singleton]%elem_of_app & H2); [eauto|done].
      - assert (Hx : forall n', n' ∈ pre.*1 -> ρ n <> ρ n'). { intros n' ([k y] & -> & Hk)%elem_of_list_fmap E. apply Hnk, Hkeys. eauto. }
        intros n1 n2. rewrite fmap_app, !elem_of_app. cbn [fmap list_fmap fst]. rewrite !elem_of_list_singleton. intros [H1| ->] [H2| ->] E; [by apply I5|by destruct (Hx n1 H1)|by destruct (Hx n2 H2)|done]. }
    assert (Hpo : forall k, k ∈ (pre ++ [(n, x)]).*1 <-> k ∈ pre.*1 \/ k = n) by (intros k; rewrite fmap_app, elem_of_app; cbn [fmap list_fmap fst]; by rewrite elem_of_list_singleton).
    assert (Hsame : ρ n = n -> forall g, sget g groups = (fun f : list string => (fun k => if bool_decide (k ∈ (pre ++ [(n, x)]).*1) then ρ k else k) <$> f) <$> sget g (fm_grps m)).
    { intros E g. rewrite I4. destruct (sget g (fm_grps m)) as [f|]; [|done]. cbn [fmap option_fmap option_map]. f_equal. apply list_fmap_ext. intros _ k _.
      destruct (bool_decide_reflect (k ∈ pre.*1)) as [H1|H1]; [rewrite bool_decide_eq_true_2; [done|apply Hpo; by left]|].
      destruct (bool_decide_reflect (k ∈ (pre ++ [(n, x)]).*1)) as [H2|H2]; [|done]. apply Hpo in H2 as [H2| ->]; done. }
    assert (Hkeep : ρ n = n -> wp (throw_if bool_decide (n ∈ fams.*1) >>> Ok (sput n x fams, groups))
      (fun s => ordered s.1 /\ (forall k x0, sget k s.1 = Some x0 <-> exists n0, (n0, x0) ∈ pre ++ [(n, x)] /\ k = ρ n0) /\ ordered s.2 /\
        (forall g, sget g s.2 = (fun f : list string => (fun n0 => if bool_decide (n0 ∈ (pre ++ [(n, x)]).*1) then ρ n0 else n0) <$> f) <$> sget g (fm_grps m)) /\
        forall n1 n2, n1 ∈ (pre ++ [(n, x)]).*1 -> n2 ∈ (pre ++ [(n, x)]).*1 -> ρ n1 = ρ n2 -> n1 = n2)
      (exists n n' k x x', (n, x) ∈ fm_fams m /\ (n', x') ∈ fm_fams m /\ n <> n' /\ new_name m n k /\ new_name m n' k)).
    { intros E. rewrite E in Hthrow, Hext. destruct (bool_decide_reflect (n ∈ fams.*1)) as [Hb|Hb]; cbn [ifthrow wp]; [by apply Hthrow|]. cbn [fst snd]. destruct (Hext Hb) as (E1 & E2 & E3). split; [done|]. split; [done|]. split; [done|]. split; [by apply Hsame|done]. }
    destruct (getGroupsOnFamily n m) as [|g [|g' L]] eqn:Eg; [apply Hkeep; unfold ρ, rho; by rewrite Eg| |apply Hkeep; unfold ρ, rho; by rewrite Eg].
    rewrite I4. destruct (sget g (fm_grps m)) as [f|] eqn:Ef; cbn [fmap option_fmap option_map]; [|apply Hkeep; unfold ρ, rho; by rewrite Eg, Ef].
    destruct f as [|y [|y' f]]; cbn [fmap list_fmap]; [apply Hkeep; unfold ρ, rho; by rewrite Eg, Ef| |apply Hkeep; unfold ρ, rho; by rewrite Eg, Ef].
    assert (y = n) as ->. { assert (Hg : g ∈ getGroupsOnFamily n m) by (rewrite Eg; left). apply groupsOn_iff in Hg as (f & Hf & Hnf); [|done]. rewrite Ef in Hf. injection Hf as <-. by apply elem_of_list_singleton in Hnf. }
    assert (E : ρ n = g) by (unfold ρ, rho; by rewrite Eg, Ef). rewrite (bool_decide_eq_false_2 _ Hnp). rewrite (bool_decide_eq_true_2 (n = n)) by done. cbn [negb ubif]. rewrite E in Hthrow, Hext.
    destruct (bool_decide_reflect (g ∈ fams.*1)) as [Hb|Hb]; cbn [ifthrow wp]; [by apply Hthrow|]. cbn [fst snd]. destruct (Hext Hb) as (E1 & E2 & E3). split; [done|]. split; [done|]. split; [by apply ordered_sput|]. split; [|done].
    intros g'. rewrite sget_sput. destruct (bool_decide_reflect (g' = g)) as [->|Ng].
    + rewrite Ef. cbn. rewrite bool_decide_eq_true_2 by (apply Hpo; by right). by rewrite E.
    + rewrite I4. destruct (sget g' (fm_grps m)) as [f|] eqn:Ef'; [|done]. cbn [fmap option_fmap option_map]. f_equal. apply list_fmap_ext. intros i k Hk.
      assert (k <> n). { intros ->. apply Ng. assert (Hg : g' ∈ getGroupsOnFamily n m) by (apply groupsOn_iff; [done|]; exists f; split; [done|by eapply elem_of_list_lookup_2]). rewrite Eg in Hg. by apply elem_of_list_singleton in Hg. }
      destruct (bool_decide_reflect (k ∈ pre.*1)) as [H1|H1]; [rewrite bool_decide_eq_true_2; [done|apply Hpo; by left]|]. rewrite bool_decide_eq_false_2; [done|]. intros [?|?]%Hpo; done.
  - intros [fams groups] (I1 & I2 & I3 & I4 & I5). cbn [fst snd wp] in *. set (m' := withMaps m fams groups).
    assert (Hv' : valid m') by (by apply valid_maps).
    assert (Hmap : forall g, sget g groups = (fun f : list string => ρ <$> f) <$> sget g (fm_grps m)).
    { intros g. rewrite I4. destruct (sget g (fm_grps m)) as [f|] eqn:Ef; [|done]. cbn [fmap option_fmap option_map]. f_equal. apply list_fmap_ext. intros i k Hk. apply elem_of_list_lookup_2 in Hk.
      apply elem_sget in Ef; [|done]. destruct (Hc g f k Ef Hk) as (x & Hx). rewrite bool_decide_eq_true_2; [done|]. apply elem_of_list_fmap. by exists (k, x). }
    assert (Hkey : forall n x, (n, x) ∈ fm_fams m -> n ∈ (fm_fams m).*1) by (intros n x Hx; apply elem_of_list_fmap; by exists (n, x)).
    split; [|split; [done|split; [|split; [done|split; [|split; [|done]]]]]].
    + intros l g e. rewrite !member_iff by done. change (fm_grps m') with groups. change (fm_fams m') with fams. change (fieldOf l m') with (fieldOf l m). rewrite Hmap. split.
      * intros (fs & a & x & Hf & Ha & Hx & k & Hk & Hkx). destruct (sget g (fm_grps m)) as [f|] eqn:Ef; [|done]. injection Hf as <-. apply elem_of_list_fmap in Hk as (n & -> & Hnf).
        exists f, a, x. do 3 (split; [done|]). exists n. split; [done|]. apply I2 in Hkx as (n' & Hn' & E). apply elem_sget in Ef; [|done]. destruct (Hc g f n Ef Hnf) as (y & Hy).
        assert (n = n') as -> by (apply I5; eauto). by apply elem_sget.
      * intros (f & a & x & Hf & Ha & Hx & n & Hnf & Hnx). rewrite Hf. exists (ρ <$> f), a, x. do 3 (split; [done|]). exists (ρ n). split; [apply elem_of_list_fmap; eauto|]. apply I2. exists n. split; [by apply elem_sget|done].
    + intros g. rewrite !has_group_iff by done. change (fm_grps m') with groups. rewrite Hmap. destruct (sget g (fm_grps m)); cbn; naive_solver.
    + intros g fs k Hg Hk. change (fm_grps m') with groups in Hg. change (fm_fams m') with fams. apply elem_sget in Hg; [|done]. rewrite Hmap in Hg. destruct (sget g (fm_grps m)) as [f|] eqn:Ef; [|done]. injection Hg as <-.
      apply elem_of_list_fmap in Hk as (n & -> & Hnf). apply elem_sget in Ef; [|done]. destruct (Hc g f n Ef Hnf) as (y & Hy). exists y. apply elem_sget; [done|]. apply I2. eauto.
    + intros k x. change (fm_fams m') with fams. rewrite elem_sget by done. rewrite I2. split; intros (n & H1 & H2); exists n; (split; [done|]); by apply Hρ.
Qed.
