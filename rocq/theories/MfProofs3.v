From stdpp Require Import strings.
From Verif Require Import Base ArrLib SerModel SerProofs MfModel MfSpec IndexProofs4 TreeProofs TreeProofs9 ConnProofs2 DtProofs2 MfProofs MfProofs2.
From Coq Require Import QArith ZifyBool ZifyNat.
Local Open Scope Z_scope.
Local Open Scope list_scope.

Lemma cpF_body {I} addr (fs : list (option (fld I))) refs refs2 ms2 das2 i l :
  (let* fo := rd fs i in
    match fo with
    | None => Ok (l ++ [None])
    | Some f =>
      throw_if (match f_mesh f with None => true | Some _ => false end) >>>
      throw_if negb (knownKind (f_kind f)) >>>
      let* r := rd refs i in
      let* m := (if negb (r =? -1) then let* p := rd ms2 r in Ok (Some p) else Ok (f_mesh f)) in
      let* rs := rd refs2 i in
      let* tmp2 := foldM (fun t k => let* a := pick das2 k in Ok (t ++ [a])) rs [] in
      let* ars := setArrays (f_kind f) tmp2 in
      let* (tol, times) := finish2 (f_kind f) (tinyInt2 f) (tinyDbl2 f) in
      Ok (l ++ [Some (Fld (addr i) (f_info f) (f_discr f) m (f_kind f) ars "" tol times)])
    end) = let* s := cpF addr fs refs refs2 ms2 das2 i in Ok (l ++ [s]).
Proof.
  unfold cpF. destruct (rd fs i) as [[f|]| | |]; cbn [bind]; try done. destruct (f_mesh f); cbn [ifthrow bind]; [|done]. destruct (knownKind (f_kind f)); cbn [negb ifthrow bind]; [|done].
  destruct (rd refs i) as [r| | |]; cbn [bind]; try done. destruct (if negb (r =? -1) then _ else _) as [m| | |]; cbn [bind]; try done.
  destruct (rd refs2 i) as [rs| | |]; cbn [bind]; try done. destruct (foldM _ rs []) as [t| | |]; cbn [bind]; try done.
  destruct (setArrays _ t) as [a| | |]; cbn [bind]; try done. destruct (finish2 _ _ _) as [[tol times]| | |]; cbn [bind]; done.
Qed.

Lemma elem_concat {X} (x : X) ls : x ∈ concat ls -> exists l, x ∈ l /\ l ∈ ls.
Proof. rewrite elem_of_list_In, in_concat. intros (l & H1 & H2). exists l. by rewrite !elem_of_list_In. Qed.
Lemma deep_copy_core {M A I} addr (s : store M A) (fs : list (option (fld I))) :
  (forall i f, fs @ i = Some (Some f) -> WellTimed f /\ InMemory s f) ->
  (exists i f, fs @ i = Some (Some f) /\ f_mesh f = None) /\ deepCopy addr s fs = Throw \/
  exists ms das ms2 das2 cm ca fs', deepCopy addr s fs = Ok (St (st_mesh s ++ cm) (st_arr s ++ ca), fs') /\
    NoDup ms /\ NoDup das /\ NoDup ms2 /\ NoDup das2 /\ zlen fs' = zlen fs /\
    (forall p p', Corr ms ms2 p p' -> FreshCopy (st_mesh s) (st_mesh s ++ cm) p p') /\
    (forall p p', Corr das das2 p p' -> FreshCopy (st_arr s) (st_arr s ++ ca) p p') /\
    (forall i, fs @ i = Some None -> fs' @ i = Some None) /\
    (forall i f, fs @ i = Some (Some f) -> exists m ars, fs' @ i = Some (Some (copyOf (addr i) f m ars)) /\ f_mesh f <> None /\
       Corr ms ms2 (f_mesh f) m /\ Forall2 (Corr das das2) (f_arrays f) ars).
Proof.
  intros HW. unfold deepCopy. pose proof (meshes_ok fs) as HM. pose proof (arrays_ok fs) as HA. destruct (getDifferentMeshes fs) as [ms refs]. destruct (getDifferentArrays fs) as [das refs2].
  destruct HM as [(HMN & HMI & _) HMR], HA as [(HAN & HAI & _) HAR].
  destruct (copies_ok (st_mesh s) ms) as (cm & HLm & HCm & ->).
  { intros p Hp. apply HMI in Hp. apply elem_of_list_fmap in Hp as ([f|] & E & Hf); [|done]. apply elem_of_zlook in Hf as (i & Hi). by apply (proj2 (HW i f Hi)). }
  cbn [bind].
  destruct (copies_ok (st_arr s) das) as (ca & HLa & HCa & ->).
  { intros p Hp. apply HAI in Hp. apply elem_concat in Hp as (l & Hp & Hl). apply elem_of_list_fmap in Hl as ([f|] & -> & Hf); [|by apply elem_of_nil in Hp]. apply elem_of_zlook in Hf as (i & Hi). by apply (proj2 (HW i f Hi)). }
  cbn [bind]. set (ms2 := _ <$> seqZ 0 (zlen ms)). set (das2 := _ <$> seqZ 0 (zlen das)).
  assert (L1 : zlen ms2 = zlen ms) by (unfold ms2; pose proof (zlen_nonneg ms); rewrite zlen_fmap; unfold zlen in *; rewrite seqZ_length; lia).
  assert (L2 : zlen das2 = zlen das) by (unfold das2; pose proof (zlen_nonneg das); rewrite zlen_fmap; unfold zlen in *; rewrite seqZ_length; lia).
  rewrite (forZ_ext' _ _ _ (fun i l => let* s := cpF addr fs refs refs2 ms2 das2 i in Ok (l ++ [s]))) by (intros i l _; apply cpF_body).
  assert (HF : forall i fo, fs @ i = Some fo -> match fo with None => cpF addr fs refs refs2 ms2 das2 i = Ok None | Some f => match f_mesh f with
    | None => cpF addr fs refs refs2 ms2 das2 i = Throw
    | Some _ => exists m ars, cpF addr fs refs refs2 ms2 das2 i = Ok (Some (copyOf (addr i) f m ars)) /\ Corr ms ms2 (f_mesh f) m /\ Forall2 (Corr das das2) (f_arrays f) ars
    end end).
  { intros i [f|] Hi; [|by unfold cpF; rewrite (rd_ok _ _ _ Hi)]. apply (cpF_ok addr fs refs refs2 ms das); try done. by apply (HW i). }
  destruct (collect (cpF addr fs refs refs2 ms2 das2) (length fs)) as [(sl & HLs & HS & E)|((i & Hi & HT) & E)].
  - intros i Hi. destruct (zlook_lt fs i) as [fo Hfo]; [done|]. specialize (HF i fo Hfo). destruct fo as [f|]; [|left; by exists None]. destruct (f_mesh f); [|by right]. left. destruct HF as (m & ars & HF & _). by eexists.
  - right. change (Z.of_nat (length fs)) with (zlen fs) in *. rewrite E. cbn [bind]. exists ms, das, ms2, das2, cm, ca, sl. split; [done|]. split; [done|]. split; [done|].
    split; [apply NoDup_fmap_2; [intros a b; lia|apply NoDup_seqZ]|]. split; [apply NoDup_fmap_2; [intros a b; lia|apply NoDup_seqZ]|]. split; [done|].
    assert (FC : forall X (h c : list X) ds, zlen c = zlen ds -> (forall k p, ds @ k = Some p -> exists x, h @ p = Some x /\ c @ k = Some x) ->
      forall p p', Corr ds ((fun k => zlen h + k) <$> seqZ 0 (zlen ds)) p p' -> FreshCopy h (h ++ c) p p').
    { intros X h c ds HLc HCc [p|] [p'|] HC; try done. cbn [Corr] in HC. destruct HC as (k & Hk & Hk'). pose proof (zlook_Some_lt _ _ _ Hk). rewrite zlook_fmap, zlook_seqZ in Hk' by lia. injection Hk' as <-.
      cbn [FreshCopy]. split; [lia|]. destruct (HCc k p Hk) as (x & Hx & Hc). exists x. split; [done|]. rewrite zlook_app_r by lia. by replace (zlen h + (0 + k) - zlen h) with k by lia. }
    split; [by apply FC|]. split; [by apply FC|].
    assert (HG : forall i fo, fs @ i = Some fo -> exists fo', sl @ i = Some fo' /\ cpF addr fs refs refs2 ms2 das2 i = Ok fo').
    { intros i fo Hi. apply zlook_Some_lt in Hi. destruct (zlook_lt sl i) as [x Hx]; [lia|]. exists x. split; [done|]. by apply HS. }
    split.
    + intros i Hi. destruct (HG i _ Hi) as (x & Hx & Ex). specialize (HF i _ Hi). cbn in HF. congruence.
    + intros i f Hi. destruct (HG i _ Hi) as (x & Hx & Ex). specialize (HF i _ Hi). cbn in HF. destruct (f_mesh f) as [m0|] eqn:Em; [|congruence].
      destruct HF as (m & ars & HF & ? & ?). exists m, ars. split; [congruence|]. by split.
  - left. change (Z.of_nat (length fs)) with (zlen fs) in *. rewrite E. cbn [bind]. split; [|done]. destruct (zlook_lt fs i) as [[f|] Hfo]; [done|..]; specialize (HF i _ Hfo); cbn in HF; [|congruence].
    exists i, f. split; [done|]. destruct (f_mesh f); [|done]. destruct HF as (? & ? & ? & _). congruence.
Qed.

Lemma forall2_zlook_lr {A B} (R : A -> B -> Prop) l k i x y : Forall2 R l k -> l @ i = Some x -> k @ i = Some y -> R x y.
Proof. intros H Hx Hy. destruct (forall2_zlook _ _ _ _ _ H Hx) as (z & Hz & HR). congruence. Qed.

Lemma deep_copy_ok {M A I} addr (s : store M A) (fs : list (option (fld I))) :
  (forall i f, fs @ i = Some (Some f) -> WellTimed f /\ InMemory s f /\ f_mesh f <> None) ->
  exists s' fs', deepCopy addr s fs = Ok (s', fs') /\
    (exists em ea, st_mesh s' = st_mesh s ++ em /\ st_arr s' = st_arr s ++ ea) /\
    zlen fs' = zlen fs /\ (forall i, fs @ i = Some None -> fs' @ i = Some None) /\
    (forall i f, fs @ i = Some (Some f) -> exists f', fs' @ i = Some (Some f') /\ f_ptr f' = addr i /\ SameData f f' /\
       FreshCopy (st_mesh s) (st_mesh s') (f_mesh f) (f_mesh f') /\ Forall2 (FreshCopy (st_arr s) (st_arr s')) (f_arrays f) (f_arrays f')) /\
    SameSharing fs fs'.
Proof.
  intros HW. destruct (deep_copy_core addr s fs) as [[(i & f & Hi & Hm) _]|(ms & das & ms2 & das2 & cm & ca & fs' & E & N1 & N2 & N3 & N4 & HL & F1 & F2 & HN & HC)].
  { intros i f Hi. by destruct (HW i f Hi) as (? & ? & _). }
  { by destruct (HW i f Hi) as (_ & _ & ?). }
  exists (St (st_mesh s ++ cm) (st_arr s ++ ca)), fs'. cbn [st_mesh st_arr]. split; [done|]. split; [by exists cm, ca|]. split; [done|]. split; [done|].
  assert (HP : forall f f', Pair fs fs' f f' -> Corr ms ms2 (f_mesh f) (f_mesh f') /\ Forall2 (Corr das das2) (f_arrays f) (f_arrays f')).
  { intros f f' (i & Hi & Hi'). destruct (HC i f Hi) as (m & ars & Hx & _ & ? & ?). assert (f' = copyOf (addr i) f m ars) as -> by congruence. done. }
  split.
  - intros i f Hi. destruct (HC i f Hi) as (m & ars & Hx & _ & C1 & C2). exists (copyOf (addr i) f m ars). split; [done|]. split; [done|]. split; [done|]. split; [by apply F1|].
    cbn [f_arrays copyOf]. eapply Forall2_impl; [exact C2|]. intros p p'. apply F2.
  - split.
    + intros f f' g g' H1 H2. destruct (HP _ _ H1) as [? _], (HP _ _ H2) as [? _]. by apply (corr_inj ms ms2).
    + intros f f' g g' a b p p' q q' H1 H2 A1 A2 B1 B2. destruct (HP _ _ H1) as [_ X1], (HP _ _ H2) as [_ X2].
      apply (corr_inj das das2); [done|done|apply (forall2_zlook_lr _ _ _ a _ _ X1 A1 A2)|apply (forall2_zlook_lr _ _ _ b _ _ X2 B1 B2)].
Qed.
Lemma deep_copy_no_mesh {M A I} addr (s : store M A) (fs : list (option (fld I))) :
  (forall i f, fs @ i = Some (Some f) -> WellTimed f /\ InMemory s f) -> (exists i f, fs @ i = Some (Some f) /\ f_mesh f = None) -> deepCopy addr s fs = Throw.
Proof.
  intros HW (i & f & Hi & Hm). destruct (deep_copy_core addr s fs HW) as [[_ ?]|(ms & das & ms2 & das2 & cm & ca & fs' & E & N1 & N2 & N3 & N4 & HL & F1 & F2 & HN & HC)]; [done|].
  by destruct (HC i f Hi) as (? & ? & _ & ? & _).
Qed.
Lemma deep_copy_discr {M A I} addr (s s' : store M A) (fs fs' : list (option (fld I))) :
  (forall i f, fs @ i = Some (Some f) -> WellTimed f /\ InMemory s f) -> deepCopy addr s fs = Ok (s', fs') ->
  forall f f', Pair fs fs' f f' -> f_unit f' = "" /\ f_discr f' = f_discr f.
Proof.
  intros HW E f f' (i & Hi & Hi'). destruct (deep_copy_core addr s fs HW) as [[_ ET]|(ms & das & ms2 & das2 & cm & ca & fs2 & E2 & N1 & N2 & N3 & N4 & HL & F1 & F2 & HN & HC)]; [by rewrite E in ET|].
  rewrite E in E2. inversion E2; subst. destruct (HC i f Hi) as (m & ars & Hx & _). assert (f' = copyOf (addr i) f m ars) as -> by congruence. done.
Qed.
