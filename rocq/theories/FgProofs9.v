(** zipFamilies. *)
From stdpp Require Import strings.
From Coq Require Import ZifyBool ZifyNat.
From Verif Require Import Base DataArray StdModel StdProofs ArrLib RenumModel RenumSpec RenumProofs PermProofs SearchModel SearchSpec SearchProofs SetsModel SetsProofs FgModel FgModel2 FgSpec FgSpec2 FgProofs FgProofs2 FgProofs3 FgProofs4 FgProofs5 FgProofs6 FgProofs7 FgProofs8.

(** ** Maps to lists. *)
Section kmap.
  Context {K V : Type} `{EqDecision K} (ltb : K -> K -> bool).
  Implicit Types (m : list (K * list V)).
  Lemma kins_perm k (v : list V) m : kins ltb k v m ≡ₚ (k, v) :: m.
  Proof. induction m as [|p m IH]; [done|]. cbn [kins]. destruct (ltb k p.1); [done|]. rewrite IH. apply perm_swap. Qed.
  Lemma kpush_nodup k x m : NoDup m.*1 -> NoDup (kpush ltb k x m).*1.
  Proof.
    intros Hn. unfold kpush. destruct (bool_decide_reflect (k ∈ m.*1)) as [Hk|Hk].
    - assert ((fun p : K * list V => if bool_decide (p.1 = k) then (p.1, p.2 ++ x) else p) <$> m = (fun p => (p.1, if bool_decide (p.1 = k) then p.2 ++ x else p.2)) <$> m) as ->.
      { apply list_fmap_ext. intros _ [a b] _. cbn [fst snd]. by destruct (bool_decide (a = k)). }
      rewrite <- list_fmap_compose. exact Hn.
    - rewrite (fmap_Permutation fst _ _ (kins_perm k x m)), fmap_cons. by constructor.
  Qed.
  Lemma kpush_iff k x m k' l : NoDup m.*1 -> (k', l) ∈ kpush ltb k x m <->
    (k' <> k /\ (k', l) ∈ m) \/ (k' = k /\ ((exists l0, (k, l0) ∈ m /\ l = l0 ++ x) \/ (k ∉ m.*1 /\ l = x))).
  Proof.
    intros Hn. unfold kpush. destruct (bool_decide_reflect (k ∈ m.*1)) as [Hk|Hk].
    - rewrite elem_of_list_fmap. split.
      + intros ([a b] & E & Hin). cbn [fst snd] in E. destruct (bool_decide_reflect (a = k)) as [->|Ha]; injection E as -> ->; [right; eauto|by left].
      + intros [[Ha Hin]|[-> [(l0 & Hin & ->)|[? _]]]]; [| |done].
        * exists (k', l). cbn [fst]. by rewrite bool_decide_eq_false_2.
        * exists (k, l0). cbn [fst snd]. by rewrite bool_decide_eq_true_2.
    - rewrite (kins_perm k x m), elem_of_cons. split.
      + intros [[= -> ->]|Hin]; [right; eauto|]. left. split; [|done]. intros ->. apply Hk, elem_of_list_fmap. by exists (k, l).
      + intros [[_ ?]|[-> [(l0 & Hin & _)|[_ ->]]]]; [by right| |by left]. destruct Hk. apply elem_of_list_fmap. by exists (k, l0).
  Qed.
End kmap.

(** ** Classes of families. *)
Definition fil (m : fmesh) (k : list string) (l : list string) : list string := filter (fun n => getGroupsOnFamily n m = k) l.
Lemma classes_ok m : NoDup (classesOf m).*1 /\ forall k ns, (k, ns) ∈ classesOf m <-> ns <> [] /\ ns = fil m k (fm_fams m).*1.
Proof.
  unfold classesOf. set (F := fm_fams m).
  assert (G : forall F2 F1 C, NoDup C.*1 /\ (forall k ns, (k, ns) ∈ C <-> ns <> [] /\ ns = fil m k F1.*1) ->
    NoDup (foldl (fun c (p : string * Z) => kpush lexltb (getGroupsOnFamily p.1 m) [p.1] c) C F2).*1 /\
    forall k ns, (k, ns) ∈ foldl (fun c (p : string * Z) => kpush lexltb (getGroupsOnFamily p.1 m) [p.1] c) C F2 <-> ns <> [] /\ ns = fil m k (F1 ++ F2).*1).
  { induction F2 as [|p F2 IH]; intros F1 C [H1 H2]; [by rewrite app_nil_r|].
    cbn [foldl]. replace (F1 ++ p :: F2) with ((F1 ++ [p]) ++ F2) by (by rewrite <- app_assoc). apply IH. clear IH. split; [by apply kpush_nodup|].
    intros k ns. pose proof (kpush_iff lexltb (getGroupsOnFamily p.1 m) [p.1] C k ns H1) as HK. rewrite HK. clear HK. rewrite fmap_app. unfold fil. rewrite filter_app. cbn [fmap list_fmap]. rewrite filter_cons, filter_nil. fold (fil m k F1.*1).
    destruct (decide (getGroupsOnFamily p.1 m = k)) as [Ek|Ek].
    - split.
      + intros [[? _]|[_ [(l0 & Hl & ->)|[Hn ->]]]]; [done| |].
        * rewrite Ek in Hl. apply H2 in Hl as [? ->]. split; [by destruct (fil m k F1.*1)|done].
        * split; [done|]. destruct (fil m k F1.*1) as [|x r] eqn:E; [done|]. destruct Hn. rewrite Ek. apply elem_of_list_fmap. exists (k, x :: r). split; [done|]. apply H2. by rewrite E.
      + intros [Hne ->]. right. split; [done|]. destruct (fil m k F1.*1) as [|x r] eqn:E.
        * right. split; [|done]. intros Hin. apply elem_of_list_fmap in Hin as ([a b] & Ea & Hab). cbn [fst] in Ea. rewrite <- Ea, Ek in Hab. apply H2 in Hab as [Hb1 Hb2]. rewrite E in Hb2. done.
        * left. exists (x :: r). split; [|done]. rewrite Ek. apply H2. by rewrite E.
    - rewrite app_nil_r. split.
      + intros [[_ ?%H2]|[? _]]; [done|]. congruence.
      + intros ?%H2. left. split; [|done]. by intros ->. }
  apply (G F [] []). split; [constructor|]. intros k ns. split; [intros ?%elem_of_nil; done|]. intros [? ->]. done.
Qed.

(** ** Substitution of ids. *)
Definition hsub (S0 : list (Z * list Z)) (x : Z) : Z := foldl (fun y p => if bool_decide (y ∈ p.2) then p.1 else y) x S0.
Lemma substIds_ok levs v ids : substIds levs (v, ids) = Ok (mapLevs (fun x => if bool_decide (x ∈ ids) then v else x) levs).
Proof.
  unfold substIds, mapLevs. set (h := fun x => if bool_decide (x ∈ ids) then v else x).
  assert (G : forall r, foldM (fun r lv => match lv_fam lv with
    | None => Ok (r ++ [lv])
    | Some a => let* pos := findIdsEqualList ids (vec a) in let* a := setIds v pos a in Ok (r ++ [LV (lv_id lv) (lv_nb lv) (Some a)])
    end) levs r = Ok (r ++ ((fun v0 => LV (lv_id v0) (lv_nb v0) (mapF h (lv_fam v0))) <$> levs))); [|apply (G [])].
  induction levs as [|[i nb fam] levs IH]; intros r; cbn [foldM].
  - by rewrite app_nil_r.
  - cbn [lv_fam lv_id lv_nb]. destruct fam as [a|]; cbn [bind].
    + destruct (findIdsEqualList_ok (vec a) eq_refl ids) as (pos & -> & Hp). cbn [bind]. destruct Hp as [_ Hp]. cbn [da_vals vec] in Hp.
      destruct (setIds_ok v pos a) as (a' & -> & E1 & E2 & E3). { intros e He. apply Hp in He as (y & Hy & _). by eapply zlook_Some_lt. }
      cbn [bind]. rewrite IH, <- app_assoc. cbn [app fmap list_fmap lv_id lv_nb lv_fam mapF]. do 4 f_equal. f_equal. apply zlook_ext. intros e.
      rewrite zlook_fmap. destruct (a @ e) as [y|] eqn:Ey.
      * cbn [fmap option_fmap option_map]. unfold h. destruct (bool_decide_reflect (y ∈ ids)) as [Hy|Hy].
        -- apply E2. apply Hp. eauto.
        -- rewrite E3; [done|]. intros He. apply Hp in He as (z & Hz & Hz2). congruence.
      * rewrite E3; [by rewrite Ey|]. intros He. apply Hp in He as (z & Hz & _). congruence.
    + rewrite IH, <- app_assoc. done.
Qed.
Lemma mapLevs_comp f g levs : mapLevs g (mapLevs f levs) = mapLevs (fun x => g (f x)) levs.
Proof.
  unfold mapLevs. rewrite <- list_fmap_compose. apply list_fmap_ext. intros _ [i nb fam] _. unfold compose. cbn [lv_id lv_nb lv_fam]. destruct fam as [a|]; [|done]. cbn [mapF].
  by rewrite <- list_fmap_compose.
Qed.
Lemma mapLevs_id levs : mapLevs (fun x => x) levs = levs.
Proof.
  unfold mapLevs. rewrite <- (list_fmap_id levs) at 2. apply list_fmap_ext. intros _ [i nb fam] _. cbn [lv_id lv_nb lv_fam id]. destruct fam as [a|]; [|done]. cbn [mapF].
  by rewrite list_fmap_id.
Qed.
Lemma substs_ok S0 levs : foldM substIds S0 levs = Ok (mapLevs (hsub S0) levs).
Proof.
  revert levs. induction S0 as [|[v ids] S0 IH]; intros levs; cbn [foldM]; [by rewrite mapLevs_id|].
  rewrite substIds_ok. cbn [bind]. rewrite IH, mapLevs_comp. done.
Qed.
Lemma hsub_ok S0 : (forall v l, (v, l) ∈ S0 -> v ∈ l) -> (forall v l v' l' x, (v, l) ∈ S0 -> (v', l') ∈ S0 -> x ∈ l -> x ∈ l' -> v = v') ->
  forall x, ((forall v l, (v, l) ∈ S0 -> x ∉ l) -> hsub S0 x = x) /\ forall v l, (v, l) ∈ S0 -> x ∈ l -> hsub S0 x = v.
Proof.
  induction S0 as [|[v1 l1] S0 IH]; intros H1 H2 x.
  - split; [done|]. intros v l ?%elem_of_nil. done.
  - assert (IH' := IH (fun v l H => H1 v l (elem_of_list_further _ _ _ H)) (fun v l v' l' y H H' => H2 v l v' l' y (elem_of_list_further _ _ _ H) (elem_of_list_further _ _ _ H'))). clear IH.
    unfold hsub. cbn [foldl fst snd]. destruct (bool_decide_reflect (x ∈ l1)) as [Hx|Hx].
    + split. { intros Hno. exfalso. eapply Hno; [left|done]. }
      intros v l Hin Hxl. assert (v = v1) as -> by (eapply H2; [exact Hin|left|exact Hxl|exact Hx]).
      assert (D : (exists w l', (w, l') ∈ S0 /\ v1 ∈ l') \/ forall w l', (w, l') ∈ S0 -> v1 ∉ l').
      { clear -S0. induction S0 as [|[w l'] S0 IHS]; [right; intros w l' ?%elem_of_nil; done|]. destruct (decide (v1 ∈ l')) as [?|Hn]; [left; exists w, l'; split; [left|done]|].
        destruct IHS as [(w2 & l2 & ? & ?)|Hr]; [left; exists w2, l2; split; [by right|done]|right]. intros w2 l2 [[= -> ->]|?]%elem_of_cons; [done|]. eauto. }
      destruct D as [(w & l' & Hw & Hv)|D].
      * assert (w = v1) as ->. { eapply H2; [right; exact Hw|left|exact Hv|]. eapply H1. left. }
        by eapply (IH' v1).
      * by apply (IH' v1).
    + split.
      * intros Hno. apply (IH' x). intros v l Hin. eapply Hno. by right.
      * intros v l [[= -> ->]|Hin]%elem_of_cons Hxl; [done|]. by eapply (IH' x).
Qed.

(** ** The families after merging. *)
Section zip.
  Variables (m : fmesh).
  Hypotheses (Hv : valid m) (Hd : distinct m).
  Let F := fm_fams m.
  Let G := fm_grps m.
  Let merged := filter (fun c : list string * list string => (1 < length c.2)%nat) (classesOf m).
  Let kill := concat ((fun c : list string * list string => tail c.2) <$> merged).
  Let gOn n := getGroupsOnFamily n m.
  Let HF : ordered F. Proof using Hv. apply Hv. Qed.
  Let HG : ordered G. Proof using Hv. apply Hv. Qed.
  Lemma fil_elem k n : n ∈ fil m k F.*1 <-> gOn n = k /\ exists x, sget n F = Some x.
  Proof using All.
    unfold fil. rewrite elem_of_list_filter. fold (gOn n). rewrite elem_of_list_fmap. split.
    - intros [? ([a b] & -> & Hin)]. split; [done|]. exists b. by apply elem_sget.
    - intros [? (x & Hx)]. split; [done|]. exists (n, x). split; [done|]. by apply elem_sget.
  Qed.
  Lemma fil_nodup k : NoDup (fil m k F.*1).
  Proof using All. apply NoDup_filter. by apply ordered_nodup. Qed.
  Lemma merged_iff k ns : (k, ns) ∈ merged <-> ns = fil m k F.*1 /\ (1 < length ns)%nat.
  Proof using All.
    unfold merged. rewrite elem_of_list_filter. cbn [snd]. destruct (classes_ok m) as [_ H]. rewrite H. fold F. split; [tauto|]. intros [-> Hl]. split; [done|]. split; [|done].
    by destruct (fil m k F.*1); cbn in Hl; [lia|].
  Qed.
  Lemma kill_iff n : n ∈ kill <-> exists keep drop, fil m (gOn n) F.*1 = keep :: drop /\ n ∈ drop.
  Proof using All.
    unfold kill. rewrite elem_of_list_In, in_concat. setoid_rewrite <- elem_of_list_In. setoid_rewrite elem_of_list_fmap. split.
    - intros (t & ([k ns] & -> & Hc) & Hn). cbn [snd] in Hn. apply merged_iff in Hc as [E Hl]. destruct ns as [|keep drop]; [cbn in Hl; lia|]. cbn [tail] in Hn.
      assert (Hg : n ∈ fil m k F.*1) by (rewrite <- E; by right). apply fil_elem in Hg as [-> _]. eauto.
    - intros (keep & drop & E & Hn). exists drop. split; [|done]. exists (gOn n, keep :: drop). split; [done|]. apply merged_iff. split; [done|]. destruct drop; [by apply elem_of_nil in Hn|cbn; lia].
  Qed.
  Lemma rep_ok n x : sget n F = Some x -> exists keep drop y, fil m (gOn n) F.*1 = keep :: drop /\ (n = keep \/ n ∈ drop) /\ keep ∉ drop /\ gOn keep = gOn n /\ sget keep F = Some y /\ keep ∉ kill.
  Proof using All.
    intros Hx. assert (Hn : n ∈ fil m (gOn n) F.*1) by (apply fil_elem; eauto). pose proof (fil_nodup (gOn n)) as Hnd.
    destruct (fil m (gOn n) F.*1) as [|keep drop] eqn:E; [by apply elem_of_nil in Hn|].
    assert (Hk : keep ∈ fil m (gOn n) F.*1) by (rewrite E; left). apply fil_elem in Hk as [Hk (y & Hy)]. apply NoDup_cons in Hnd as [Hnd _].
    exists keep, drop, y. split; [done|]. split; [by apply elem_of_cons in Hn|]. split; [done|]. split; [done|]. split; [done|]. rewrite kill_iff, Hk, E. intros (? & ? & [= <- <-] & ?). done.
  Qed.
  Definition entry (c : list string * list string) (p : Z * list Z) : Prop :=
    exists keep drop, c.2 = keep :: drop /\ sget keep F = Some p.1 /\ forall x, x ∈ p.2 <-> inG F c.2 x.
  Definition body := fun '((groups, fams, subst) : list (string * list string) * list (string * Z) * list (Z * list Z)) (c : list string * list string) =>
    match c.2 with
    | [] => UB
    | keep :: drop =>
      let id := default 0 (sget keep (fm_fams m)) in
      let* (groups, subst) := foldM (fun '(groups, subst) g =>
        let* ids := getFamiliesIds c.2 m in
        let old := default [] (sget g (fm_grps m)) in
        Ok (sput g (keep :: filter (fun n => n ∉ kill) old) groups, kpush Z.ltb id ids subst)) c.1 (groups, subst) in
      Ok (groups, foldl (fun f n => sdel n f) fams drop, subst)
    end.
  Lemma inner_ok (c : list string * list string) keep drop (id : Z) gs : c.2 = keep :: drop -> (forall n, n ∈ c.2 -> exists x, sget n F = Some x) -> forall groups subst,
    ordered groups -> NoDup subst.*1 -> (forall l, (id, l) ∈ subst -> forall x, x ∈ l <-> inG F c.2 x) ->
    exists groups' subst', foldM (fun '(groups, subst) g =>
        let* ids := getFamiliesIds c.2 m in
        let old := default [] (sget g (fm_grps m)) in
        Ok (sput g (keep :: filter (fun n => n ∉ kill) old) groups, kpush Z.ltb id ids subst)) gs (groups, subst) = Ok (groups', subst') /\
      ordered groups' /\ NoDup subst'.*1 /\ (forall g, sget g groups' = if bool_decide (g ∈ gs) then Some (keep :: filter (fun n => n ∉ kill) (default [] (sget g G))) else sget g groups) /\
      (forall v l, v <> id -> (v, l) ∈ subst' <-> (v, l) ∈ subst) /\ (forall l, (id, l) ∈ subst' -> forall x, x ∈ l <-> inG F c.2 x) /\
      (gs <> [] -> id ∈ subst'.*1) /\ (gs = [] -> subst' = subst) /\ (id ∈ subst.*1 -> id ∈ subst'.*1).
  Proof using All.
    intros Ec Hex. induction gs as [|g gs IH]; intros groups subst H1 H2 H3; cbn [foldM].
    - exists groups, subst. split; [done|]. repeat (split; [done|]). done.
    - destruct (familiesIds_ok m c.2 Hex) as (ids & Ei & Hids). rewrite Ei. cbn [bind]. cbn zeta.
      set (v := keep :: filter (fun n => n ∉ kill) (default [] (sget g (fm_grps m)))).
      pose proof (kpush_iff Z.ltb id ids subst) as HK.
      destruct (IH (sput g v groups) (kpush Z.ltb id ids subst)) as (groups' & subst' & E & A1 & A2 & A3 & A4 & A5 & A6 & A7 & A8).
      { by apply ordered_sput. } { by apply kpush_nodup. }
      { intros l Hl x. apply (HK id l H2) in Hl as [[? _]|[_ [(l0 & Hl0 & ->)|[_ ->]]]]; [done| |apply Hids]. rewrite elem_of_app, (H3 _ Hl0), Hids. tauto. }
      assert (Hin : id ∈ (kpush Z.ltb id ids subst).*1).
      { destruct (decide (id ∈ subst.*1)) as [Hi|Hi].
        - apply elem_of_list_fmap in Hi as ([a l0] & Ea & Hl0). cbn [fst] in Ea. subst a. apply elem_of_list_fmap. exists (id, l0 ++ ids). split; [done|]. apply (HK _ _ H2). right. eauto.
        - apply elem_of_list_fmap. exists (id, ids). split; [done|]. apply (HK _ _ H2). right. eauto. }
      exists groups', subst'. rewrite Ei in E. split; [exact E|]. split; [done|]. split; [done|]. split; [|split; [|split; [done|split; [|split; [done|]]]]].
      + intros g'. rewrite A3, sget_sput. destruct (bool_decide_reflect (g' ∈ gs)) as [Hg|Hg]; [rewrite bool_decide_eq_true_2; [done|by right]|].
        destruct (bool_decide_reflect (g' = g)) as [->|Hne]; [rewrite bool_decide_eq_true_2; [done|left]|]. rewrite bool_decide_eq_false_2; [done|]. intros [?|?]%elem_of_cons; done.
      + intros w l Hw. rewrite (A4 w l Hw), (HK w l H2). split; [intros [[_ ?]|[? _]]; done|]. intros ?. by left.
      + intros _. by apply A8.
      + intros _. by apply A8.
  Qed.
  Definition st_ok (pre : list (list string * list string)) '((groups, fams, subst) : list (string * list string) * list (string * Z) * list (Z * list Z)) : Prop :=
    ordered groups /\ ordered fams /\ NoDup subst.*1 /\
    (forall g, (forall c, c ∈ pre -> g ∉ c.1) -> sget g groups = sget g G) /\
    (forall g c, c ∈ pre -> g ∈ c.1 -> exists c' keep drop, c' ∈ pre /\ g ∈ c'.1 /\ c'.2 = keep :: drop /\ sget g groups = Some (keep :: filter (fun n => n ∉ kill) (default [] (sget g G)))) /\
    (forall n, sget n fams = if bool_decide (n ∈ concat ((fun c : list string * list string => tail c.2) <$> pre)) then None else sget n F) /\
    (forall p, p ∈ subst -> exists c, c ∈ pre /\ entry c p) /\
    (forall c, c ∈ pre -> c.1 <> [] -> exists p, p ∈ subst /\ entry c p).
  Lemma sdels_get (drop : list string) (fams : list (string * Z)) n : ordered fams -> ordered (foldl (fun f n => sdel n f) fams drop) /\ sget n (foldl (fun f n => sdel n f) fams drop) = if bool_decide (n ∈ drop) then None else sget n fams.
  Proof.
    revert fams. induction drop as [|d drop IH]; intros fams Ho; cbn [foldl]; [done|]. destruct (IH (sdel d fams) (ordered_sdel _ _ Ho)) as [I1 I2]. split; [done|]. rewrite I2, sget_sdel by done.
    destruct (bool_decide_reflect (n ∈ drop)) as [Hn|Hn]; [rewrite bool_decide_eq_true_2; [done|by right]|].
    destruct (bool_decide_reflect (n = d)) as [->|Hne]; [rewrite bool_decide_eq_true_2; [done|left]|]. rewrite bool_decide_eq_false_2; [done|]. intros [?|?]%elem_of_cons; done.
  Qed.
  Lemma merged_nodup : NoDup merged.*1.
  Proof using All.
    destruct (classes_ok m) as [H _]. unfold merged. revert H. generalize (classesOf m). intros l. induction l as [|c l IH]; [done|]. rewrite fmap_cons. intros [H1 H2]%NoDup_cons.
    rewrite filter_cons. destruct (decide (1 < length c.2)%nat); [|by apply IH]. rewrite fmap_cons. constructor; [|by apply IH].
    intros (x & Ex & Hx)%elem_of_list_fmap. apply H1. apply elem_of_list_fmap. exists x. split; [done|]. by apply elem_of_list_filter in Hx as [_ ?].
  Qed.
  Lemma loop_ok9 : exists groups fams subst, foldM body merged (G, F, []) = Ok (groups, fams, subst) /\ st_ok merged (groups, fams, subst).
  Proof using All.
    assert (W : wp (foldM body merged (G, F, [])) (fun st => st_ok merged st) False).
    2: { destruct (foldM body merged (G, F, [])) as [[[groups fams] subst]| | |]; cbn [wp] in W; try done. exists groups, fams, subst. done. }
    apply (wp_foldM body (fun pre st => st_ok pre st)); [| |done].
    - split; [done|]. split; [done|]. split; [constructor|]. split; [done|]. split; [intros g c ?%elem_of_nil; done|]. split; [done|]. split; [intros p ?%elem_of_nil; done|intros c ?%elem_of_nil; done].
    - intros pre [k ns] post [[groups fams] subst] El (I1 & I2 & I3 & I4 & I5 & I6 & I7 & I8). unfold body. cbn [fst snd].
      assert (Hin : (k, ns) ∈ merged) by (rewrite El; set_solver). pose proof Hin as [En Hl]%merged_iff. destruct ns as [|keep drop]; [cbn in Hl; lia|].
      assert (Hex : forall n, n ∈ keep :: drop -> exists x, sget n F = Some x) by (intros n Hn; rewrite En in Hn; by apply fil_elem in Hn as [_ ?]).
      destruct (Hex keep) as [id Hid]; [left|]. fold F. rewrite Hid. change (default 0 (Some id)) with id.
      assert (Hfresh : id ∉ subst.*1).
      { intros ([v l] & E & Hp)%elem_of_list_fmap. cbn [fst] in E. subst v. destruct (I7 _ Hp) as ([k' ns'] & Hc' & keep' & drop' & E2 & E3 & _). cbn [fst snd] in *.
        assert (keep' = keep) as -> by (eapply Hd; apply elem_sget; eassumption).
        assert (Hin' : (k', ns') ∈ merged) by (rewrite El; set_solver). apply merged_iff in Hin' as [En' _].
        assert (k' = k) as ->. { assert (H1 : keep ∈ fil m k F.*1) by (rewrite <- En; left). assert (H2 : keep ∈ fil m k' F.*1) by (rewrite <- En', E2; left). apply fil_elem in H1 as [<- _], H2 as [<- _]. done. }
        pose proof merged_nodup as Hnd. rewrite El, fmap_app, fmap_cons in Hnd. apply NoDup_app in Hnd as (_ & Hnd & _). apply (Hnd k); [|left]. apply elem_of_list_fmap. by exists (k, ns'). }
      destruct (inner_ok (k, keep :: drop) keep drop id k eq_refl Hex groups subst I1 I3) as (groups' & subst' & Ef & A1 & A2 & A3 & A4 & A5 & A6 & A7 & _).
      { intros l Hl'. destruct Hfresh. apply elem_of_list_fmap. by exists (id, l). }
      cbn [fst snd] in *. rewrite Ef. cbn [bind wp]. destruct (sdels_get drop fams "" I2) as [B1 _]. split; [done|]. split; [done|]. split; [done|]. split; [|split; [|split; [|split]]].
      + intros g Hno. rewrite A3, bool_decide_eq_false_2; [|apply (Hno (k, keep :: drop)); set_solver]. apply I4. intros c Hc. apply Hno. set_solver.
      + intros g c [Hc| ->%elem_of_list_singleton]%elem_of_app Hg; rewrite A3.
        * destruct (bool_decide_reflect (g ∈ k)) as [Hk|Hk]; [exists (k, keep :: drop), keep, drop; split; [set_solver|done]|].
          destruct (I5 g c Hc Hg) as (c' & kp & dp & ? & ? & ? & ?). exists c', kp, dp. split; [set_solver|done].
        * cbn [fst] in Hg. rewrite bool_decide_eq_true_2 by done. exists (k, keep :: drop), keep, drop. split; [set_solver|done].
      + intros n. destruct (sdels_get drop fams n I2) as [_ ->]. rewrite I6, fmap_app, concat_app. cbn [fmap list_fmap concat tail snd]. rewrite app_nil_r.
        destruct (bool_decide_reflect (n ∈ drop)) as [Hn|Hn]; [rewrite bool_decide_eq_true_2; [done|set_solver]|].
        destruct (bool_decide_reflect (n ∈ concat ((fun c : list string * list string => tail c.2) <$> pre))) as [Hp|Hp]; [rewrite bool_decide_eq_true_2; [done|apply elem_of_app; by left]|].
        rewrite bool_decide_eq_false_2; [done|]. intros [?|?]%elem_of_app; done.
      + intros [v l] Hp. destruct (decide (v = id)) as [->|Hne].
        * exists (k, keep :: drop). split; [set_solver|]. exists keep, drop. split; [done|]. split; [done|]. by apply A5.
        * apply (A4 v l Hne) in Hp. destruct (I7 _ Hp) as (c & ? & ?). exists c. split; [set_solver|done].
      + intros c [Hc| ->%elem_of_list_singleton]%elem_of_app Hk.
        * destruct (I8 c Hc Hk) as ([v l] & Hp & He). exists (v, l). split; [|done]. apply A4; [|done]. intros ->. destruct Hfresh. apply elem_of_list_fmap. by exists (id, l).
        * cbn [fst] in Hk. specialize (A6 Hk). apply elem_of_list_fmap in A6 as ([v l] & E & Hp). cbn [fst] in E. subst v. exists (id, l). split; [done|]. exists keep, drop. split; [done|]. split; [done|]. by apply A5.
  Qed.
  Lemma zip_core : exists m', (let* (groups, fams, subst) := foldM body merged (G, F, []) in let* levs := foldM substIds subst (fm_levs m) in Ok (FM fams groups levs)) = Ok m' /\
    valid m' /\ same_content m m' /\ same_levels m m' /\ (forall g, has_group m' g <-> has_group m g) /\
    (forall n x, (n, x) ∈ fm_fams m' -> (n, x) ∈ fm_fams m) /\
    (forall n, (exists x, (n, x) ∈ fm_fams m) -> exists n' x', (n', x') ∈ fm_fams m' /\ alike m n n') /\
    (forall n n' x x', (n, x) ∈ fm_fams m' -> (n', x') ∈ fm_fams m' -> alike m' n n' -> n = n').
  Proof using All.
    destruct loop_ok9 as (groups & fams & subst & -> & I1 & I2 & I3 & I4 & I5 & I6 & I7 & I8). cbn [bind]. rewrite substs_ok. cbn [bind]. eexists. split; [done|].
    fold kill in I6. set (h := hsub subst).
    (* groups afterwards *)
    assert (HgM : forall g, (exists c, c ∈ merged /\ g ∈ c.1) \/ forall c, c ∈ merged -> g ∉ c.1).
    { intros g. destruct (decide (Exists (fun c : list string * list string => g ∈ c.1) merged)) as [(c & ? & ?)%Exists_exists|Hn]; [left; eauto|right]. intros c Hc Hg. apply Hn, Exists_exists. eauto. }
    assert (HgG : forall g f, sget g G = Some f -> exists f', sget g groups = Some f' /\ forall n, n ∈ f' <-> n ∈ f /\ n ∉ kill).
    { intros g f Hf. destruct (HgM g) as [(c & Hc & Hg)|Hn].
      - destruct (I5 g c Hc Hg) as ([k ns] & keep & drop & Hc' & Hg' & E & ->). cbn [fst snd] in *. subst ns. rewrite Hf. cbn [default]. eexists. split; [done|]. intros n.
        apply merged_iff in Hc' as [En Hl]. assert (Hk : keep ∈ fil m k F.*1) by (rewrite <- En; left). apply fil_elem in Hk as [Hk (y & Hy)]. subst k.
        destruct (rep_ok keep y Hy) as (kp & dp & _ & E1 & _ & _ & _ & _ & Hkk). rewrite <- En in E1. injection E1 as <- <-.
        assert (Hkf : keep ∈ f). { unfold gOn in Hg'. apply groupsOn_iff in Hg' as (f' & Hf' & ?); [|done]. fold G in Hf'. congruence. }
        rewrite elem_of_cons, elem_of_list_filter. split; [intros [->|[? ?]]; done|]. tauto.
      - rewrite (I4 g Hn), Hf. exists f. split; [done|]. intros n. split; [|tauto]. intros Hnf. split; [done|]. rewrite kill_iff. intros (keep & drop & E & Hd').
        apply (Hn (gOn n, keep :: drop)).
        + apply merged_iff. split; [done|]. destruct drop; [by apply elem_of_nil in Hd'|cbn; lia].
        + cbn [fst]. unfold gOn. apply groupsOn_iff; [done|]. eauto. }
    assert (HgG' : forall g f', sget g groups = Some f' -> exists f, sget g G = Some f).
    { intros g f' Hf'. destruct (HgM g) as [(c & Hc & Hg)|Hn]; [|rewrite (I4 g Hn) in Hf'; eauto].
      destruct c as [k ns]. cbn [fst] in Hg. apply merged_iff in Hc as [En Hl]. destruct ns as [|keep drop]; [cbn in Hl; lia|].
      assert (Hk : keep ∈ fil m k F.*1) by (rewrite <- En; left). apply fil_elem in Hk as [<- _]. unfold gOn in Hg. apply groupsOn_iff in Hg as (f & Hf & _); [|done]. eauto. }
    (* ids afterwards *)
    assert (Hent : forall v l, (v, l) ∈ subst -> exists keep drop, sget keep F = Some v /\ fil m (gOn keep) F.*1 = keep :: drop /\ forall x, x ∈ l <-> inG F (keep :: drop) x).
    { intros v l Hp. destruct (I7 _ Hp) as ([k ns] & Hc & keep & drop & E & E2 & E3). cbn [fst snd] in *. subst ns. apply merged_iff in Hc as [En _]. exists keep, drop. split; [done|].
      assert (Hk : keep ∈ fil m k F.*1) by (rewrite <- En; left). apply fil_elem in Hk as [-> _]. done. }
    assert (Huniq : forall n n' x, sget n F = Some x -> sget n' F = Some x -> n = n') by (intros n n' x ? ?; eapply Hd; apply elem_sget; eassumption).
    assert (Hsub : forall x, ((forall v l, (v, l) ∈ subst -> x ∉ l) -> h x = x) /\ forall v l, (v, l) ∈ subst -> x ∈ l -> h x = v).
    { apply hsub_ok.
      - intros v l Hp. destruct (Hent v l Hp) as (keep & drop & E1 & _ & E3). apply E3. exists keep. split; [left|done].
      - intros v l v' l' x Hp Hp' Hx Hx'. destruct (Hent v l Hp) as (keep & drop & E1 & E2 & E3), (Hent v' l' Hp') as (keep' & drop' & E1' & E2' & E3').
        apply E3 in Hx as (n & Hn & Hnx). apply E3' in Hx' as (n' & Hn' & Hnx'). assert (n' = n) as -> by eauto.
        rewrite <- E2 in Hn. rewrite <- E2' in Hn'. apply fil_elem in Hn as [Hn _], Hn' as [Hn' _]. assert (gOn keep = gOn keep') as E by congruence. rewrite E, E2' in E2. injection E2 as -> ->. congruence. }
    (* an id of a family of group g becomes the one of the family that is kept *)
    assert (Hrep : forall n x, sget n F = Some x -> gOn n <> [] -> exists keep drop, fil m (gOn n) F.*1 = keep :: drop /\ keep ∉ kill /\ gOn keep = gOn n /\ sget keep F = Some (h x)).
    { intros n x Hx Hg. destruct (rep_ok n x Hx) as (keep & drop & y & R1 & R2 & R3 & R4 & R5 & R6). exists keep, drop. split; [done|]. split; [done|]. split; [done|].
      destruct drop as [|d drop].
      - destruct R2 as [->|?%elem_of_nil]; [|done]. rewrite Hx in R5. injection R5 as <-. rewrite Hx. f_equal. symmetry. apply (Hsub x). intros v l Hp Hxl.
        destruct (I7 _ Hp) as ([k ns] & Hc & kp & dp & E & E2 & E3). cbn [fst snd] in *. subst ns. apply merged_iff in Hc as [En Hl]. apply E3 in Hxl as (n & Hn & Hnx).
        assert (n = keep) as -> by eauto. rewrite En in Hn. apply fil_elem in Hn as [<- _]. rewrite R1 in En. injection En as -> ->. cbn in Hl. lia.
      - assert (Hc : (gOn n, keep :: d :: drop) ∈ merged) by (apply merged_iff; split; [done|cbn; lia]).
        destruct (I8 _ Hc Hg) as ([v l] & Hp & kp & dp & E & E2 & E3). cbn [fst snd] in *. injection E as <- <-. rewrite E2. f_equal. symmetry. eapply (Hsub x); [exact Hp|]. apply E3. exists n. split; [|done].
        apply elem_of_cons. tauto. }
    assert (Hback : forall x n, sget n F = Some (h x) -> n ∉ kill -> gOn n <> [] -> exists n', sget n' F = Some x /\ gOn n' = gOn n).
    { intros x n Hn Hk Hg. destruct (decide (Exists (fun p : Z * list Z => x ∈ p.2) subst)) as [He|He].
      - apply Exists_exists in He as ([v l] & Hp & Hxl). cbn [snd] in Hxl. destruct (Hsub x) as [_ Hs]. rewrite (Hs v l Hp Hxl) in Hn.
        destruct (Hent v l Hp) as (keep & drop & E1 & E2 & E3). assert (n = keep) as -> by eauto. apply E3 in Hxl as (n' & Hn' & Hx'). exists n'. split; [done|]. rewrite <- E2 in Hn'. by apply fil_elem in Hn' as [? _].
      - destruct (Hsub x) as [Hs _]. rewrite Hs in Hn; [eauto|]. intros v l Hp Hxl. apply He, Exists_exists. exists (v, l). done. }
    assert (HF6 : forall n x, sget n fams = Some x <-> sget n F = Some x /\ n ∉ kill).
    { intros n x. rewrite I6. destruct (bool_decide_reflect (n ∈ kill)) as [?|?]; [|tauto]. split; [done|tauto]. }
    assert (HgOn : forall n g f, sget g G = Some f -> n ∈ f <-> g ∈ gOn n).
    { intros n g f Hf. unfold gOn. rewrite groupsOn_iff by done. fold G. split; [eauto|]. intros (f' & ? & ?). congruence. }
    split; [by apply valid_map|]. split; [|split; [apply levels_map|split; [|split; [|split]]]].
    - intros l g e. rewrite member_map, member_iff by done. split.
      + intros (f' & a & x & H1 & H2 & H3 & n & Hn & Hx). destruct (HgG' g f' H1) as (f & Hf). destruct (HgG g f Hf) as (f'' & Hf'' & Hiff). assert (f'' = f') as -> by congruence.
        apply Hiff in Hn as [Hn Hk]. apply HF6 in Hx as [Hx _]. exists f, a, x. split; [done|]. split; [done|]. split; [done|].
        destruct (Hback x n Hx Hk) as (n' & Hn' & Eg). { intros E. apply (HgOn n g f Hf) in Hn. rewrite E in Hn. by apply elem_of_nil in Hn. }
        exists n'. split; [|done]. apply (HgOn n' g f Hf). rewrite Eg. by apply (HgOn n g f Hf).
      + intros (f & a & x & H1 & H2 & H3 & n & Hn & Hx). destruct (HgG g f H1) as (f' & Hf' & Hiff). exists f', a, x. split; [done|]. split; [done|]. split; [done|].
        destruct (Hrep n x Hx) as (keep & drop & R1 & R2 & R3 & R4). { intros E. apply (HgOn n g f H1) in Hn. rewrite E in Hn. by apply elem_of_nil in Hn. }
        exists keep. split; [|by apply HF6]. apply Hiff. split; [|done]. apply (HgOn keep g f H1). rewrite R3. by apply (HgOn n g f H1).
    - intros g. rewrite !has_group_iff by (try done; by apply valid_map). cbn [fm_grps]. split; [intros (f' & Hf'); by eapply HgG'|]. intros (f & Hf). destruct (HgG g f Hf) as (f' & ? & _). eauto.
    - intros n x Hx. cbn [fm_fams] in Hx. apply elem_sget in Hx; [|done]. apply HF6 in Hx as [Hx _]. by apply elem_sget.
    - intros n (x & Hx). apply elem_sget in Hx; [|done]. destruct (rep_ok n x Hx) as (keep & drop & y & R1 & R2 & R3 & R4 & R5 & R6). exists keep, y. split; [apply elem_sget; [done|]; by apply HF6|].
      intros g f Hf. apply elem_sget in Hf; [|done]. rewrite (HgOn n g f Hf), (HgOn keep g f Hf). by rewrite R4.
    - intros n n' x x' Hx Hx' Hal. cbn [fm_fams] in *. apply elem_sget in Hx, Hx'; [|done..]. apply HF6 in Hx as [Hx Hk], Hx' as [Hx' Hk'].
      assert (E : gOn n = gOn n').
      { unfold gOn, getGroupsOnFamily. f_equal. fold G. 
        assert (Hs : forall p, p ∈ G -> n ∈ p.2 <-> n' ∈ p.2).
        { intros [g f] Hp. cbn [snd]. apply elem_sget in Hp; [|done]. destruct (HgG g f Hp) as (f' & Hf' & Hiff). specialize (Hal g f'). cbn [fm_grps] in Hal.
          rewrite <- elem_sget in Hf' by done. specialize (Hal Hf'). rewrite !Hiff in Hal. tauto. }
        clear -Hs. induction G as [|p L IH]; [done|]. rewrite !filter_cons. rewrite IH by (intros q Hq; apply Hs; by right). pose proof (Hs p (elem_of_list_here _ _)) as Hp.
        destruct (decide (n ∈ p.2)), (decide (n' ∈ p.2)); tauto. }
      destruct (rep_ok n x Hx) as (keep & drop & y & R1 & R2 & R3 & R4 & R5 & R6), (rep_ok n' x' Hx') as (keep' & drop' & y' & R1' & R2' & R3' & R4' & R5' & R6').
      rewrite E, R1' in R1. injection R1 as -> ->.
      destruct R2 as [->|Hdr]; [|exfalso; apply Hk, kill_iff; rewrite E, R1'; eauto]. destruct R2' as [->|Hdr']; [done|]. exfalso. apply Hk', kill_iff. rewrite R1'. eauto.
  Qed.
End zip.
Theorem zipFamilies_ok m : valid m -> distinct m -> (forall g f, (g, f) ∈ fm_grps m -> zeroName ∉ f) -> exists m', zipFamilies m = Ok m' /\
  valid m' /\ same_content m m' /\ same_levels m m' /\ (forall g, has_group m' g <-> has_group m g) /\
  (forall n x, (n, x) ∈ fm_fams m' -> (n, x) ∈ fm_fams m) /\
  (forall n n' x x', (n, x) ∈ fm_fams m' -> (n', x') ∈ fm_fams m' -> alike m' n n' -> n = n').
Proof.
  intros Hv Hd Hz. unfold zipFamilies. replace (zeroInGroup m) with false. 2: { symmetry. unfold zeroInGroup. apply bool_decide_eq_false_2. intros ([g f] & ? & ?)%Exists_exists. by eapply Hz. }
  cbn [ifthrow]. destruct (removeFamiliesReferedByNoGroups_ok m Hv) as (A1 & A2 & A3 & A4 & A5 & A6). set (m1 := removeFamiliesReferedByNoGroups m) in *.
  assert (Hd1 : distinct m1) by (intros n n' x [Hx _]%A6 [Hx' _]%A6; by eapply Hd).
  destruct (zip_core m1 A3 Hd1) as (m' & E & B1 & B2 & B3 & B4 & B5 & B6 & B7). exists m'. split; [exact E|]. split; [done|].
  split; [intros l g e; by rewrite (B2 l g e)|]. split; [by eapply same_levels_trans|]. split; [|split; [|done]].
  - intros g. rewrite B4. unfold has_group. by rewrite A4.
  - intros n x Hx%B5. by apply A6 in Hx as [? _].
Qed.
Lemma zipFamilies_throw m : (exists g f, (g, f) ∈ fm_grps m /\ zeroName ∈ f) -> zipFamilies m = Throw.
Proof. intros (g & f & ? & ?). unfold zipFamilies. replace (zeroInGroup m) with true; [done|]. symmetry. unfold zeroInGroup. apply bool_decide_eq_true_2, Exists_exists. by exists (g, f). Qed.
