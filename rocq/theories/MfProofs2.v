From stdpp Require Import strings.
From Verif Require Import Base ArrLib SerModel SerProofs MfModel MfSpec IndexProofs4 TreeProofs TreeProofs9 ConnProofs2 DtProofs2 MfProofs.
From Coq Require Import QArith ZifyBool ZifyNat.
Local Open Scope Z_scope.
Local Open Scope list_scope.

Lemma copies_ok {X} (h : list X) ms : (forall p, p ∈ ms -> 0 <= p < zlen h) ->
  exists cs, zlen cs = zlen ms /\ (forall k p, ms @ k = Some p -> exists c, h @ p = Some c /\ cs @ k = Some c) /\
    foldM (fun st p => let '(h, l) := st in let* m := rd h p in Ok (h ++ [m], l ++ [zlen h])) ms (h, []) =
    Ok (h ++ cs, (fun k => zlen h + k) <$> seqZ 0 (zlen ms)).
Proof.
  induction ms as [|p ms IH] using rev_ind; intros HI.
  - exists []. split; [done|]. split; [intros k p Hk; by apply zlook_Some_lt in Hk as [??]; unfold zlen in *; cbn in *; lia|]. by rewrite app_nil_r.
  - destruct IH as (cs & HL & HC & HF); [intros q Hq; apply HI; set_solver|].
    destruct (zlook_lt h p) as [c Hc]; [apply HI; set_solver|].
    exists (cs ++ [c]). rewrite !zlen_app, HL. split; [done|]. split.
    + intros k q Hk. pose proof (zlook_Some_lt _ _ _ Hk) as B. rewrite zlen_app in B. change (zlen [p]) with 1 in B.
      destruct (Z.ltb_spec k (zlen ms)) as [H|H].
      * rewrite zlook_app_l in Hk by lia. destruct (HC k q Hk) as (c' & ? & ?). exists c'. by rewrite zlook_app_l by lia.
      * assert (k = zlen ms) as -> by lia. rewrite zlook_app_r, Z.sub_diag in Hk by lia. injection Hk as <-. exists c. split; [done|]. rewrite zlook_app_r, HL, Z.sub_diag by lia. done.
    + rewrite foldM_app, HF. cbn [bind foldM]. pose proof (zlook_Some_lt _ _ _ Hc). rewrite (rd_ok (h ++ cs) p c) by (by rewrite zlook_app_l by lia). cbn [bind].
      rewrite <- app_assoc, zlen_app, HL. pose proof (zlen_nonneg ms). change (zlen [p]) with 1. rewrite seqZ_app by lia. rewrite fmap_app. rewrite (seqZ_cons (0 + zlen ms)) by lia. done.
Qed.

(** the pointer numbered [r] *)
Definition mp (ds : list Z) (r : Z) : option Z := if r =? -1 then None else ds @ r.
Lemma pick_ok ds ds' p r : RefOf ds p r -> zlen ds' = zlen ds -> pick ds' r = Ok (mp ds' r) /\ Corr ds ds' p (mp ds' r).
Proof.
  intros HR HL. unfold pick, mp. destruct p as [x|]; cbn [RefOf] in HR.
  - pose proof (zlook_Some_lt _ _ _ HR). destruct (Z.eqb_spec r (-1)); [lia|]. destruct (zlook_lt ds' r) as [y Hy]; [lia|]. rewrite (rd_ok _ _ _ Hy), Hy. cbn [bind Corr]. split; [done|]. by exists r.
  - by subst r.
Qed.
Lemma picks_ok ds ds' ps rs : Forall2 (RefOf ds) ps rs -> zlen ds' = zlen ds -> forall t,
  foldM (fun t k => let* a := pick ds' k in Ok (t ++ [a])) rs t = Ok (t ++ (mp ds' <$> rs)) /\ Forall2 (Corr ds ds') ps (mp ds' <$> rs).
Proof.
  intros HF HL. induction HF as [|p r ps rs Hp HF IH]; intros t; cbn [foldM fmap list_fmap]; [by rewrite app_nil_r|].
  destruct (pick_ok _ ds' _ _ Hp HL) as [E HC]. rewrite E. cbn [bind]. destruct (IH (t ++ [mp ds' r])) as [E2 HC2]. rewrite E2. rewrite <- app_assoc. by split; [|constructor].
Qed.
Lemma zlook_inj (l : list Z) i j x : NoDup l -> l @ i = Some x -> l @ j = Some x -> i = j.
Proof.
  intros HN Hi Hj. pose proof (zlook_Some_lt _ _ _ Hi). pose proof (zlook_Some_lt _ _ _ Hj). rewrite zlook_to_nat in Hi, Hj by lia. pose proof (NoDup_lookup _ _ _ _ HN Hi Hj). lia.
Qed.
Lemma corr_inj ds ds' p p' q q' : NoDup ds -> NoDup ds' -> Corr ds ds' p p' -> Corr ds ds' q q' -> p' = q' <-> p = q.
Proof.
  intros H1 H2 HP HQ. destruct p as [p|], p' as [p'|], q as [q|], q' as [q'|]; try done. cbn [Corr] in HP, HQ.
  destruct HP as (k & A1 & A2), HQ as (l & B1 & B2). split; intros [= ->].
  - assert (k = l) as -> by (by apply (zlook_inj ds' _ _ q')). congruence.
  - assert (k = l) as -> by (by apply (zlook_inj ds _ _ q)). congruence.
Qed.
Lemma finish2_ok {I} (f : fld I) : WellTimed f -> finish2 (f_kind f) (tinyInt2 f) (tinyDbl2 f) = Ok (f_tol f, f_times f).
Proof.
  unfold tinyInt2, tinyDbl2. intros [(-> & H & _)|[(-> & H & _)|[(-> & H & _)|(-> & H & _)]]]; destruct (f_times f) as [|[[??]?] [|[[??]?] [|??]]]; unfold zlen in H; cbn in H; try lia; done.
Qed.
Lemma kind_ok {I} (f : fld I) : WellTimed f -> knownKind (f_kind f) = true /\ nbArrays (f_kind f) = zlen (f_arrays f).
Proof. unfold knownKind, nbArrays. intros [(-> & _ & H)|[(-> & _ & H)|[(-> & _ & H)|(-> & _ & H)]]]; rewrite H; done. Qed.

(** the copy of the field of rank [i] *)
Definition cpF {I} (addr : Z -> Z) (fs : list (option (fld I))) refs refs2 ms2 das2 i : res (option (fld I)) :=
    let* fo := rd fs i in
    match fo with
    | None => Ok None
    | Some f =>
      throw_if (match f_mesh f with None => true | Some _ => false end) >>>
      throw_if negb (knownKind (f_kind f)) >>>
      let* r := rd refs i in
      let* m := (if negb (r =? -1) then let* p := rd ms2 r in Ok (Some p) else Ok (f_mesh f)) in
      let* rs := rd refs2 i in
      let* tmp2 := foldM (fun t k => let* a := pick das2 k in Ok (t ++ [a])) rs [] in
      let* ars := setArrays (f_kind f) tmp2 in
      let* (tol, times) := finish2 (f_kind f) (tinyInt2 f) (tinyDbl2 f) in
      Ok (Some (Fld (addr i) (f_info f) (f_discr f) m (f_kind f) ars "" tol times))
    end.
Lemma forall2_zlook {A B} (R : A -> B -> Prop) l l' i x : Forall2 R l l' -> l @ i = Some x -> exists y, l' @ i = Some y /\ R x y.
Proof.
  intros HF Hx. pose proof (zlook_Some_lt _ _ _ Hx). rewrite zlook_to_nat in Hx by lia. destruct (Forall2_lookup_l _ _ _ _ _ HF Hx) as (y & Hy & HR). exists y. by rewrite zlook_to_nat by lia.
Qed.
Definition copyOf {I} (a : Z) (f : fld I) (m : option Z) (ars : list (option Z)) : fld I := Fld a (f_info f) (f_discr f) m (f_kind f) ars "" (f_tol f) (f_times f).
Lemma cpF_ok {I} addr (fs : list (option (fld I))) refs refs2 ms das ms2 das2 i f : fs @ i = Some (Some f) -> WellTimed f ->
  Forall2 (RefOf ms) (meshOf <$> fs) refs -> Forall2 (Forall2 (RefOf das)) (arraysOf <$> fs) refs2 -> zlen ms2 = zlen ms -> zlen das2 = zlen das ->
  match f_mesh f with
  | None => cpF addr fs refs refs2 ms2 das2 i = Throw
  | Some _ => exists m ars, cpF addr fs refs refs2 ms2 das2 i = Ok (Some (copyOf (addr i) f m ars)) /\ Corr ms ms2 (f_mesh f) m /\ Forall2 (Corr das das2) (f_arrays f) ars
  end.
Proof.
  intros Hf HW HM HA HL1 HL2. unfold cpF. rewrite (rd_ok _ _ _ Hf). cbn [bind]. destruct (f_mesh f) as [x|] eqn:Ex; [|done].
  destruct (kind_ok f HW) as [HK1 HK2]. rewrite HK1. cbn [negb ifthrow].
  destruct (forall2_zlook _ _ _ i (Some x) HM) as (r & Hr & Rr); [rewrite zlook_fmap, Hf; cbn; by rewrite Ex|].
  destruct (forall2_zlook _ _ _ i (f_arrays f) HA) as (rs & Hrs & Rrs); [by rewrite zlook_fmap, Hf|].
  rewrite (rd_ok _ _ _ Hr). cbn [bind]. destruct (pick_ok _ ms2 _ _ Rr HL1) as [E HC]. pose proof Rr as B. cbn [RefOf] in B. apply zlook_Some_lt in B.
  unfold pick in E. destruct (Z.eqb_spec r (-1)) as [|N]; [lia|]. cbn [negb]. rewrite E. cbn [bind]. rewrite (rd_ok _ _ _ Hrs). cbn [bind].
  destruct (picks_ok _ das2 _ _ Rrs HL2 []) as [E2 HC2]. rewrite E2. cbn [bind]. unfold setArrays. rewrite HK2.
  pose proof (Forall2_length _ _ _ HC2) as EL. cbn [app]. replace (zlen (mp das2 <$> rs) =? zlen (f_arrays f)) with true by (unfold zlen; lia). cbn [negb ifthrow bind].
  rewrite (finish2_ok f HW). cbn [bind]. by exists (mp ms2 r), (mp das2 <$> rs).
Qed.
