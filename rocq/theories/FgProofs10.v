(** normalizeFamIdsMEDFile, normalizeFamIdsTrio. *)
From stdpp Require Import strings.
From Coq Require Import ZifyBool ZifyNat.
From Verif Require Import Base DataArray StdModel StdProofs ArrLib RenumModel RenumSpec RenumProofs PermProofs SearchModel SearchSpec SearchProofs SetsModel SetsProofs FgModel FgModel2 FgSpec FgSpec2 FgProofs FgProofs2 FgProofs3 FgProofs4 FgProofs5 FgProofs6 FgProofs7 FgProofs8.

Lemma ensure_ok m : ensureDifferentFamIdsPerLevel m = match fm_fams m with [] => Throw | _ => Ok (true, m) end.
Proof.
  unfold ensureDifferentFamIdsPerLevel, getMaxFamilyId. destruct (fm_fams m) as [|p F]; [done|]. cbn [bind].
  assert (E : forall levs, foldM (fun r v => match lv_fam v with
    | None => Ok r
    | Some a => let* dv := getDifferentValues (vec a) in Ok (r ++ filter (fun x => x ∈ []) dv)
    end) levs [] = Ok (@nil Z)); [|by rewrite E].
  induction levs as [|v levs IH]; [done|]. cbn [foldM]. destruct (lv_fam v) as [a|]; [|exact IH].
  destruct (differentValues_ok (vec a) eq_refl) as (dv & -> & _). cbn [bind]. replace (filter (fun x => x ∈ []) dv) with (@nil Z); [exact IH|].
  clear. induction dv as [|x dv IH]; [done|]. rewrite filter_cons, decide_False by (by intros ?%elem_of_nil). exact IH.
Qed.
Lemma renOf_ok ref sg dv x : x ∈ dv -> exists k, 0 <= k < zlen dv /\ dv @ k = Some x /\ renOf ref sg dv x = ref + sg * k.
Proof.
  intros Hx. unfold renOf. destruct (list_find (eq x) dv) as [[i y]|] eqn:E.
  - apply list_find_Some in E as (H1 & <- & _). exists (Z.of_nat i). assert (H2 : dv @ Z.of_nat i = Some x) by (unfold zlook; replace (Z.of_nat i <? 0) with false by lia; by rewrite Nat2Z.id).
    split; [by eapply zlook_Some_lt|]. done.
  - exfalso. by eapply list_find_None, Forall_forall in E.
Qed.

Section norm.
  Variables (m : fmesh).
  Hypotheses (Hv : valid m) (Hd : distinct m).
  Let F := fm_fams m.
  Let HF : ordered F. Proof using Hv. apply Hv. Qed.
  Let Hn : NoDup (lv_id <$> fm_levs m). Proof using Hv. apply Hv. Qed.
  Lemma lev_eq v w : v ∈ fm_levs m -> w ∈ fm_levs m -> lv_id v = lv_id w -> v = w.
  Proof using All. intros H1 H2 E. assert (A : findLev (lv_id w) m = Some v) by (by apply findLev_Some). assert (B : findLev (lv_id w) m = Some w) by (by apply findLev_Some). congruence. Qed.
  Lemma name_iff x n : nameOfId x F = Some n <-> sget n F = Some x.
  Proof using All.
    split; [by apply nameOfId_Some|]. apply nameOfId_uniq; [done|]. intros a b y ? ?. eapply Hd; apply elem_sget; eassumption.
  Qed.
  Lemma fams_fold (ren : Z -> Z) dv : NoDup dv -> forall f, ordered f -> exists f', foldM (fun f x => if existsFamilyId x m then let* n := getFamilyNameGivenId x m in Ok (sput n (ren x) f) else Ok f) dv f = Ok f' /\ ordered f' /\
    (forall n x, sget n F = Some x -> sget n f' = if bool_decide (x ∈ dv) then Some (ren x) else sget n f) /\ forall n, sget n F = None -> sget n f' = sget n f.
  Proof using All.
    induction dv as [|x dv IH]; intros Hnd f Ho; cbn [foldM]; [by exists f|]. apply NoDup_cons in Hnd as [Hx Hnd].
    unfold existsFamilyId, getFamilyNameGivenId. fold F. destruct (nameOfId x F) as [n0|] eqn:En; cbn [bind].
    - destruct (IH Hnd (sput n0 (ren x) f) (ordered_sput _ _ _ Ho)) as (f' & E & A1 & A2 & A3). exists f'. split; [exact E|]. split; [done|]. apply name_iff in En. split.
      + intros n y Hy. rewrite (A2 n y Hy), sget_sput. destruct (bool_decide_reflect (y ∈ dv)) as [Hin|Hin]; [rewrite bool_decide_eq_true_2; [done|by right]|].
        destruct (bool_decide_reflect (n = n0)) as [->|Hne].
        * assert (y = x) as -> by congruence. rewrite bool_decide_eq_true_2; [done|left].
        * rewrite bool_decide_eq_false_2; [done|]. intros [->|?]%elem_of_cons; [|done]. apply name_iff in En, Hy. congruence.
      + intros n Hnone. rewrite (A3 n Hnone), sget_sput, bool_decide_eq_false_2; [done|]. congruence.
    - destruct (IH Hnd f Ho) as (f' & E & A1 & A2 & A3). exists f'. split; [exact E|]. split; [done|]. split; [|done].
      intros n y Hy. rewrite (A2 n y Hy). destruct (bool_decide_reflect (y ∈ dv)) as [Hin|Hin]; [rewrite bool_decide_eq_true_2; [done|by right]|].
      rewrite bool_decide_eq_false_2; [done|]. intros [->|?]%elem_of_cons; [|done]. apply name_iff in Hy. congruence.
  Qed.
  (** What has been done once the levels of [P] are renumbered by [R]. *)
  Definition levsBy (P : list level) (R : Z -> Z -> Z) : list level :=
    (fun v => if bool_decide (lv_id v ∈ lv_id <$> P) then LV (lv_id v) (lv_nb v) (mapF (R (lv_id v)) (lv_fam v)) else v) <$> fm_levs m.
  Definition done9 (P : list level) (R : Z -> Z -> Z) (f : list (string * Z)) (m' : fmesh) : Prop :=
    ordered f /\ fm_levs m' = levsBy P R /\
    (forall n y, sget n f = Some y -> exists v a x, v ∈ P /\ lv_fam v = Some a /\ x ∈ a /\ sget n F = Some x /\ y = R (lv_id v) x) /\
    (forall n x v a, v ∈ P -> lv_fam v = Some a -> x ∈ a -> sget n F = Some x -> exists y, sget n f = Some y).
  Lemma phase_ok sg ref0 Ls P0 R0 f0 m0 : (forall v, v ∈ P0 ++ Ls -> v ∈ fm_levs m) -> NoDup (lv_id <$> (P0 ++ Ls)) -> done9 P0 R0 f0 m0 ->
    exists ref f m' R k K, renLevels m sg Ls (ref0, f0, m0) = Ok (ref, f, m') /\ done9 (P0 ++ Ls) R f m' /\ (forall v, v ∈ P0 -> R (lv_id v) = R0 (lv_id v)) /\ 0 <= K /\ ref = ref0 + sg * K /\
      (forall v a x, v ∈ Ls -> lv_fam v = Some a -> x ∈ a -> R (lv_id v) x = ref0 + sg * k (lv_id v) x /\ 0 <= k (lv_id v) x < K) /\
      (forall v a x v' a' x', v ∈ Ls -> lv_fam v = Some a -> x ∈ a -> v' ∈ Ls -> lv_fam v' = Some a' -> x' ∈ a' -> k (lv_id v) x = k (lv_id v') x' -> v = v' /\ x = x').
  Proof using All.
    revert m0 f0 R0. induction Ls as [|v Ls IH] using rev_ind; intros m0 f0 R0 Hin Hnd H0.
    { exists ref0, f0, m0, R0, (fun _ _ => 0), 0. split; [done|]. rewrite app_nil_r. split; [done|]. split; [done|]. split; [lia|]. split; [lia|]. split; [intros ??? ?%elem_of_nil|intros ?????? ?%elem_of_nil]; done. }
    rewrite app_assoc in Hin, Hnd. destruct (IH m0 f0 R0) as (ref & f & m' & R & k & K & E & (D1 & D2 & D3 & D4) & Hold & HK & Href & Hk & Hinj).
    { intros w Hw. apply Hin, elem_of_app. by left. } { rewrite fmap_app in Hnd. by apply NoDup_app in Hnd as [? _]. } { done. }
    clear IH. unfold renLevels in *. rewrite foldM_app, E. cbn [bind foldM]. clear E.
    assert (Hvm : v ∈ fm_levs m) by (apply Hin, elem_of_app; right; left).
    assert (Hvn : lv_id v ∉ lv_id <$> (P0 ++ Ls)). { rewrite fmap_app in Hnd. apply NoDup_app in Hnd as (_ & H & _). intros Hi. eapply H; [exact Hi|left]. }
    assert (Hne : forall w, w ∈ P0 ++ Ls -> lv_id w <> lv_id v). { intros w Hw Ew. apply Hvn. rewrite <- Ew. apply elem_of_list_fmap. eauto. }
    unfold renLevel. destruct (lv_fam v) as [a|] eqn:Ea; cbn [bind].
    - destruct (differentValues_ok (vec a) eq_refl) as (dv & -> & Hdi & Hde). cbn [bind da_vals vec] in *.
      assert (Hdn : NoDup dv). { apply NoDup_zlook. intros i j x Hi Hj. destruct (Z.lt_trichotomy i j) as [?|[?|?]]; [|done|]; exfalso; [pose proof (Hdi i j x x)|pose proof (Hdi j i x x)]; naive_solver lia. }
      set (ren := renOf ref sg dv). destruct (fams_fold ren dv Hdn f D1) as (f' & -> & A1 & A2 & A3). cbn [bind].
      set (R' := fun l => if l =? lv_id v then ren else R l).
      assert (HR : forall w, w ∈ P0 ++ Ls -> R' (lv_id w) = R (lv_id w)). { intros w Hw. unfold R'. replace (lv_id w =? lv_id v) with false by (specialize (Hne w Hw); lia). done. }
      assert (HRv : R' (lv_id v) = ren) by (unfold R'; by rewrite Z.eqb_refl).
      set (pos := fun x => match list_find (eq x) dv with Some (i, _) => Z.of_nat i | None => 0 end).
      assert (Hpos : forall x, x ∈ a -> 0 <= pos x < zlen dv /\ dv @ pos x = Some x /\ ren x = ref + sg * pos x).
      { intros x Hx. apply Hde in Hx. unfold pos, ren, renOf. destruct (list_find (eq x) dv) as [[i y]|] eqn:Ef.
        - apply list_find_Some in Ef as (H1 & <- & _). assert (H2 : dv @ Z.of_nat i = Some x) by (unfold zlook; replace (Z.of_nat i <? 0) with false by lia; by rewrite Nat2Z.id).
          split; [by eapply zlook_Some_lt|]. done.
        - exfalso. by eapply list_find_None, Forall_forall in Ef. }
      eexists _, f', _, R', (fun l x => if l =? lv_id v then K + pos x else k l x), (K + zlen dv). split; [reflexivity|].
      pose proof (zlen_nonneg dv) as Hz. split; [|split; [|split; [lia|split; [lia|split]]]].
      + rewrite app_assoc. split; [done|]. split; [|split].
        * unfold putFam. cbn [fm_levs]. rewrite D2. unfold levsBy. rewrite <- list_fmap_compose. apply list_fmap_ext. intros i w Hw. unfold compose.
          assert (Hwm : w ∈ fm_levs m) by (by eapply elem_of_list_lookup_2). rewrite (fmap_app lv_id (P0 ++ Ls) [v]).
          destruct (bool_decide_reflect (lv_id w ∈ lv_id <$> P0 ++ Ls)) as [Hi|Hi].
          -- cbn [lv_id lv_nb lv_fam]. assert (lv_id w <> lv_id v) by congruence. replace (lv_id w =? lv_id v) with false by lia. rewrite bool_decide_eq_true_2 by (apply elem_of_app; by left).
             unfold R'. by replace (lv_id w =? lv_id v) with false by lia.
          -- destruct (Z.eqb_spec (lv_id w) (lv_id v)) as [Ew|Ew].
             ++ assert (w = v) as -> by (by apply lev_eq). rewrite bool_decide_eq_true_2 by (apply elem_of_app; right; left). rewrite HRv, Ea. done.
             ++ rewrite bool_decide_eq_false_2; [done|]. intros [?|?%elem_of_list_singleton]%elem_of_app; done.
        * intros n y Hy. destruct (sget n F) as [x|] eqn:Ex.
          -- rewrite (A2 n x Ex) in Hy. destruct (bool_decide_reflect (x ∈ dv)) as [Hx|Hx].
             ++ injection Hy as <-. exists v, a, x. split; [apply elem_of_app; right; left|]. split; [done|]. split; [by apply Hde|]. split; [done|]. by rewrite HRv.
             ++ destruct (D3 n y Hy) as (w & b & z & W1 & W2 & W3 & W4 & W5). exists w, b, z. split; [apply elem_of_app; by left|]. split; [done|]. split; [done|]. split; [congruence|]. by rewrite (HR w W1).
          -- rewrite (A3 n Ex) in Hy. destruct (D3 n y Hy) as (w & b & z & W1 & W2 & W3 & W4 & W5). congruence.
        * intros n x w b [Hw| ->%elem_of_list_singleton]%elem_of_app Hb Hx Hxn; rewrite (A2 n x Hxn).
          -- destruct (bool_decide_reflect (x ∈ dv)); [eauto|]. eapply D4; eassumption.
          -- rewrite bool_decide_eq_true_2; [eauto|]. apply Hde. congruence.
      + intros w Hw. rewrite (HR w); [by apply Hold|]. apply elem_of_app. by left.
      + intros w b x [Hw| ->%elem_of_list_singleton]%elem_of_app Hb Hx.
        * assert (Hw2 : w ∈ P0 ++ Ls) by (apply elem_of_app; by right). rewrite (HR w Hw2). replace (lv_id w =? lv_id v) with false by (specialize (Hne w Hw2); lia). destruct (Hk w b x Hw Hb Hx) as [? ?]. split; [done|lia].
        * rewrite HRv, Z.eqb_refl. assert (b = a) as -> by congruence. destruct (Hpos x Hx) as (? & ? & ->). split; [lia|lia].
      + intros w b x w' b' x' [Hw| ->%elem_of_list_singleton]%elem_of_app Hb Hx [Hw'| ->%elem_of_list_singleton]%elem_of_app Hb' Hx'.
        * assert (Hw2 : w ∈ P0 ++ Ls) by (apply elem_of_app; by right). assert (Hw2' : w' ∈ P0 ++ Ls) by (apply elem_of_app; by right).
          replace (lv_id w =? lv_id v) with false by (specialize (Hne w Hw2); lia). replace (lv_id w' =? lv_id v) with false by (specialize (Hne w' Hw2'); lia). by apply (Hinj w b x w' b' x').
        * assert (Hw2 : w ∈ P0 ++ Ls) by (apply elem_of_app; by right). replace (lv_id w =? lv_id v) with false by (specialize (Hne w Hw2); lia). rewrite Z.eqb_refl.
          destruct (Hk w b x Hw Hb Hx) as [_ ?]. assert (b' = a) as -> by congruence. destruct (Hpos x' Hx') as (? & _). lia.
        * assert (Hw2' : w' ∈ P0 ++ Ls) by (apply elem_of_app; by right). replace (lv_id w' =? lv_id v) with false by (specialize (Hne w' Hw2'); lia). rewrite Z.eqb_refl.
          destruct (Hk w' b' x' Hw' Hb' Hx') as [_ ?]. assert (b = a) as -> by congruence. destruct (Hpos x Hx) as (? & _). lia.
        * rewrite Z.eqb_refl. assert (b = a) as -> by congruence. assert (b' = a) as -> by congruence. intros Ek. split; [done|]. destruct (Hpos x Hx) as (_ & P1 & _), (Hpos x' Hx') as (_ & P2 & _).
          assert (E : pos x = pos x') by lia. rewrite E in P1. congruence.
    - eexists _, f, _, R, k, K. split; [reflexivity|]. rewrite app_assoc. split; [|split; [done|split; [done|split; [change (zlen (@nil Z)) with 0; lia|split]]]].
      + split; [done|]. split; [|split].
        * unfold putFam. cbn [fm_levs]. rewrite D2. unfold levsBy. rewrite <- list_fmap_compose. apply list_fmap_ext. intros i w Hw. unfold compose.
          assert (Hwm : w ∈ fm_levs m) by (by eapply elem_of_list_lookup_2). rewrite (fmap_app lv_id (P0 ++ Ls) [v]).
          destruct (bool_decide_reflect (lv_id w ∈ lv_id <$> P0 ++ Ls)) as [Hi|Hi].
          -- cbn [lv_id lv_nb lv_fam]. assert (lv_id w <> lv_id v) by congruence. replace (lv_id w =? lv_id v) with false by lia. by rewrite bool_decide_eq_true_2 by (apply elem_of_app; by left).
          -- destruct (Z.eqb_spec (lv_id w) (lv_id v)) as [Ew|Ew].
             ++ assert (w = v) as -> by (by apply lev_eq). rewrite bool_decide_eq_true_2 by (apply elem_of_app; right; left). by rewrite Ea.
             ++ rewrite bool_decide_eq_false_2; [done|]. intros [?|?%elem_of_list_singleton]%elem_of_app; done.
        * intros n y Hy. destruct (D3 n y Hy) as (w & b & z & W1 & W2 & W3 & W4 & W5). exists w, b, z. split; [apply elem_of_app; by left|done].
        * intros n x w b [Hw| ->%elem_of_list_singleton]%elem_of_app Hb Hx Hxn; [by eapply D4|congruence].
      + intros w b x [Hw| ->%elem_of_list_singleton]%elem_of_app Hb Hx; [by eapply Hk|congruence].
      + intros w b x w' b' x' [Hw| ->%elem_of_list_singleton]%elem_of_app Hb Hx [Hw'| ->%elem_of_list_singleton]%elem_of_app Hb' Hx'; [|congruence..]. by apply (Hinj w b x w' b' x').
  Qed.
End norm.
Lemma keepOthers_ok m f : ordered (fm_fams m) -> ordered f -> ordered (keepOthers m f) /\ forall n, sget n (keepOthers m f) = match sget n f with Some y => Some y | None => sget n (fm_fams m) end.
Proof.
  intros HF. unfold keepOthers. assert (Hnd := ordered_nodup _ HF). revert HF Hnd. generalize (fm_fams m). intros L. revert f. induction L as [|[k x] L IH]; intros f HL Hnd Ho; cbn [foldl fst snd].
  - split; [done|]. intros n. by destruct (sget n f).
  - apply ordered_cons in HL as [HL _]. rewrite fmap_cons in Hnd. apply NoDup_cons in Hnd as [Hk Hnd]. cbn [fst] in Hk. cbn [sget].
    assert (Hnone : sget k L = None) by (by apply sget_keys).
    destruct (sget k f) as [y|] eqn:Ek.
    + destruct (IH f HL Hnd Ho) as [I1 I2]. split; [done|]. intros n. rewrite I2. destruct (bool_decide_reflect (n = k)) as [->|?]; [by rewrite Ek|done].
    + destruct (IH (sput k x f) HL Hnd (ordered_sput _ _ _ Ho)) as [I1 I2]. split; [done|]. intros n. rewrite I2, sget_sput. destruct (bool_decide_reflect (n = k)) as [->|?]; [by rewrite Ek|done].
Qed.
Section core.
  Variables (m m' : fmesh) (P : list level) (R : Z -> Z -> Z) (f : list (string * Z)).
  Hypotheses (Hv : valid m) (Hd : distinct m) (Hone : one_level m) (HP : forall v, v ∈ fm_levs m <-> v ∈ P) (HD : done9 m P R f m').
  Let F := fm_fams m.
  Let HF : ordered F. Proof using Hv. apply Hv. Qed.
  Let HG : ordered (fm_grps m). Proof using Hv. apply Hv. Qed.
  Let m2 := withMaps m' (keepOthers m f) (fm_grps m).
  Lemma core_levs : fm_levs m2 = (fun v => LV (lv_id v) (lv_nb v) (mapF (R (lv_id v)) (lv_fam v))) <$> fm_levs m.
  Proof using All.
    destruct HD as (_ & E & _). unfold m2. cbn [withMaps fm_levs]. rewrite E. unfold levsBy. apply list_fmap_ext. intros i v Hi. rewrite bool_decide_eq_true_2; [done|].
    apply elem_of_list_fmap. exists v. split; [done|]. apply HP. by eapply elem_of_list_lookup_2.
  Qed.
  Lemma core_ids : lv_id <$> fm_levs m2 = lv_id <$> fm_levs m.
  Proof using All. rewrite core_levs, <- list_fmap_compose. done. Qed.
  Lemma core_lev l : findLev l m2 = (fun v => LV (lv_id v) (lv_nb v) (mapF (R (lv_id v)) (lv_fam v))) <$> findLev l m.
  Proof using All.
    assert (Hn : NoDup (lv_id <$> fm_levs m)) by apply Hv. assert (Hn2 : NoDup (lv_id <$> fm_levs m2)) by (rewrite core_ids; done).
    destruct (findLev l m) as [v|] eqn:E.
    - apply findLev_Some in E as [H1 <-]; [|done]. cbn [fmap option_fmap option_map]. apply findLev_Some; [done|]. split; [|done]. rewrite core_levs. apply elem_of_list_fmap. eauto.
    - cbn [fmap option_fmap option_map]. apply findLev_None. intros v. rewrite core_levs. intros (w & -> & Hw)%elem_of_list_fmap. cbn [lv_id]. by eapply findLev_None in E.
  Qed.
  Lemma core_field l : fieldOf l m2 = mapF (R l) (fieldOf l m).
  Proof using All.
    unfold fieldOf. rewrite core_lev. destruct (findLev l m) as [v|] eqn:E; [|done]. cbn [fmap option_fmap option_map mbind option_bind lv_fam]. apply findLev_Some in E as [_ <-]; [done|]. apply Hv.
  Qed.
  Lemma core_valid : valid m2.
  Proof using All.
    destruct HD as (Ho & _). split; [by apply keepOthers_ok|]. split; [done|]. split; [rewrite core_ids; apply Hv|]. split.
    - intros v. rewrite core_levs. intros (w & -> & Hw)%elem_of_list_fmap. cbn [lv_nb]. by apply Hv.
    - intros v a. rewrite core_levs. intros (w & -> & Hw)%elem_of_list_fmap. cbn [lv_nb lv_fam]. destruct (lv_fam w) as [b|] eqn:Eb; [|done]. intros [= <-]. rewrite zlen_fmap. by apply Hv.
  Qed.
  Lemma core_levels : same_levels m m2.
  Proof using All.
    intros l nb. rewrite (has_level_iff m2) by apply core_valid. rewrite (has_level_iff m) by done. rewrite core_lev. destruct (findLev l m) as [v|]; cbn; [|naive_solver].
    split; intros (w & [= <-] & <-); eauto.
  Qed.
  Lemma core_groups g : has_group m2 g <-> has_group m g.
  Proof using All. done. Qed.
  Lemma core_names n : (exists x, (n, x) ∈ fm_fams m2) <-> exists x, (n, x) ∈ fm_fams m.
  Proof using All.
    pose proof HD as (Ho & _ & D3 & _). destruct (keepOthers_ok m f HF Ho) as [K1 K2]. unfold m2. cbn [withMaps fm_fams].
    assert (E : forall L : list (string * Z), ordered L -> (exists x, (n, x) ∈ L) <-> exists x, sget n L = Some x) by (intros L HL; split; intros (x & Hx); exists x; by apply elem_sget).
    rewrite (E _ K1), (E (fm_fams m) HF), K2. destruct (sget n f) as [y|] eqn:En; [|done]. split; [|eauto]. intros _. destruct (D3 n y En) as (? & ? & x & _ & _ & _ & Hx & _). eauto.
  Qed.
  Lemma core_id g fams n x : sget g (fm_grps m) = Some fams -> n ∈ fams -> sget n F = Some x -> exists l, in_field m l x /\ sget n (fm_fams m2) = Some (R l x) /\ forall l', in_field m l' x -> l' = l.
  Proof using All.
    intros Hg Hn Hx. pose proof HD as (Ho & _ & D3 & D4). destruct (keepOthers_ok m f HF Ho) as [K1 K2]. destruct (Hone n x) as [(l & Hl) Hu].
    { exists g, fams. split; [by apply elem_sget|]. split; [done|]. by apply elem_sget. }
    destruct Hl as (v & a & H1 & H2 & H3 & H4). destruct (D4 n x v a) as (y & Hy); [by apply HP|done..|]. exists l. split; [by exists v, a|]. split.
    - cbn [m2 withMaps fm_fams]. rewrite K2, Hy. destruct (D3 n y Hy) as (v' & a' & x' & V1 & V2 & V3 & V4 & ->). fold F in V4. assert (x' = x) as -> by congruence. do 2 f_equal. apply Hu; [|by exists v, a].
      exists v', a'. split; [by apply HP|done].
    - intros l' Hl'. apply Hu; [done|]. by exists v, a.
  Qed.
  Lemma core_member l g e : member m2 l g e <-> exists fams a x n, sget g (fm_grps m) = Some fams /\ fieldOf l m = Some a /\ a @ e = Some x /\ n ∈ fams /\ sget n (fm_fams m2) = Some (R l x).
  Proof using All.
    rewrite member_iff by apply core_valid. rewrite core_field. split.
    - intros (fams & b & y & H1 & H2 & H3 & n & Hn & Hy). destruct (fieldOf l m) as [a|] eqn:E; [|done]. injection H2 as <-. rewrite zlook_fmap in H3. destruct (a @ e) as [x|] eqn:Ex; [|done]. injection H3 as <-. exists fams, a, x, n. done.
    - intros (fams & a & x & n & H1 & H2 & H3 & H4 & H5). exists fams, (R l <$> a), (R l x). split; [done|]. rewrite H2. split; [done|]. split; [by rewrite zlook_fmap, H3|]. by exists n.
  Qed.
  Lemma core_in_field l y : in_field m2 l y <-> exists x, in_field m l x /\ y = R l x.
  Proof using All.
    rewrite in_field_iff by apply core_valid. setoid_rewrite (in_field_iff m); [|done]. rewrite core_field. destruct (fieldOf l m) as [a|]; cbn [mapF].
    - split.
      + intros (b & [= <-] & (x & -> & Hx)%elem_of_list_fmap). eauto.
      + intros (x & (b & [= <-] & Hx) & ->). exists (R l <$> a). split; [done|]. apply elem_of_list_fmap. eauto.
    - split; [intros (? & ? & _)|intros (? & (? & ? & _) & _)]; done.
  Qed.
  Lemma core_names_kept n x : (n, x) ∈ fm_fams m2 -> (exists g fams, (g, fams) ∈ fm_grps m /\ n ∈ fams) -> exists l, in_field m2 l x.
  Proof using All.
    intros H1 (g & fams & H2 & H3). destruct (core_names n) as [Hc _]. destruct Hc as (y & Hy); [eauto|]. apply elem_sget in Hy; [|done]. apply elem_sget in H2; [|done].
    destruct (core_id g fams n y H2 H3 Hy) as (l & L1 & L2 & _). apply elem_sget in H1; [|apply core_valid]. exists l. apply core_in_field. exists y. split; [done|]. congruence.
  Qed.
End core.
Lemma nodup_filter_ids (Q : level -> Prop) `{!forall z, Decision (Q z)} (L : list level) : NoDup (lv_id <$> L) -> NoDup (lv_id <$> filter Q L).
Proof.
  induction L as [|v L IH]; [done|]. rewrite fmap_cons. intros [H1 H2]%NoDup_cons. rewrite filter_cons. destruct (decide (Q v)); [|by apply IH]. rewrite fmap_cons. constructor; [|by apply IH].
  intros (w & E & Hw)%elem_of_list_fmap. apply H1. rewrite E. apply elem_of_list_fmap. exists w. split; [done|]. by apply elem_of_list_filter in Hw as [_ ?].
Qed.
Lemma blank9 m : valid m -> done9 m [] (fun _ x => x) [] m.
Proof.
  intros Hv. split; [constructor|]. split; [|split; [done|intros ???? ?%elem_of_nil; done]]. unfold levsBy. rewrite <- (list_fmap_id (fm_levs m)) at 1. apply list_fmap_ext. intros i v _.
  rewrite bool_decide_eq_false_2; [done|]. by intros ?%elem_of_nil.
Qed.
Theorem normalizeMEDFile_ok m : valid m -> distinct m -> one_level m -> fm_fams m <> [] -> exists m', normalizeFamIdsMEDFile m = Ok m' /\
  valid m' /\ same_content m m' /\ same_levels m m' /\ (forall g, has_group m' g <-> has_group m g) /\ (forall n, (exists x, (n, x) ∈ fm_fams m') <-> exists x, (n, x) ∈ fm_fams m) /\
  (forall l x, in_field m' l x -> if decide (l = 1) then 1 <= x else x <= -1) /\ (forall l l' x, in_field m' l x -> in_field m' l' x -> l = l') /\ one_level m'.
Proof.
  intros Hv Hd Hone Hne. unfold normalizeFamIdsMEDFile. rewrite ensure_ok. replace (match fm_fams m with [] => Throw | _ :: _ => Ok (true, m) end) with (Ok (true, m)) by (by destruct (fm_fams m)). cbn [bind].
  assert (Hn : NoDup (lv_id <$> fm_levs m)) by apply Hv.
  set (L1 := filter (fun v => lv_id v = 1) (fm_levs m)). set (L2 := filter (fun v => lv_id v <> 1) (fm_levs m)).
  assert (Hall : forall v, v ∈ fm_levs m <-> v ∈ L1 ++ L2) by (intros v; unfold L1, L2; rewrite elem_of_app, !elem_of_list_filter; destruct (decide (lv_id v = 1)); tauto).
  assert (Hnd : NoDup (lv_id <$> (L1 ++ L2))).
  { rewrite fmap_app. apply NoDup_app. split; [by apply nodup_filter_ids|]. split; [|by apply nodup_filter_ids]. intros x (v & -> & [E _]%elem_of_list_filter)%elem_of_list_fmap (w & Ew & [E' _]%elem_of_list_filter)%elem_of_list_fmap. congruence. }
  destruct (phase_ok m Hv Hd 1 1 L1 [] (fun _ x => x) [] m) as (ref1 & f1 & m1 & R1 & k1 & K1 & E1 & D1 & _ & HK1 & Hr1 & Hk1 & Hi1).
  { intros v Hvv. apply Hall, elem_of_app. by left. } { rewrite fmap_app in Hnd. by apply NoDup_app in Hnd as [? _]. } { by apply blank9. }
  rewrite E1. cbn [bind]. cbn [app] in D1.
  destruct (phase_ok m Hv Hd (-1) (-1) L2 L1 R1 f1 m1) as (ref2 & f2 & m2 & R & k2 & K2 & E2 & D2 & Hold & HK2 & Hr2 & Hk2 & Hi2); [intros v; apply Hall|done|done|].
  rewrite E2. cbn [bind]. set (m3 := withMaps m2 (keepOthers m f2) (fm_grps m)). exists m3. split; [done|].
  pose proof (core_in_field m m2 (L1 ++ L2) R f2 Hv Hd Hone Hall D2) as Hin. fold m3 in Hin.
  assert (HL1 : forall l x, in_field m l x -> l = 1 -> exists v a, v ∈ L1 /\ lv_id v = l /\ lv_fam v = Some a /\ x ∈ a /\ R l x = 1 + 1 * k1 l x /\ 0 <= k1 l x).
  { intros l x (v & a & H1 & H2 & H3 & H4) Hl. exists v, a. assert (Hv1 : v ∈ L1) by (apply elem_of_list_filter; split; [congruence|done]). do 4 (split; [done|]). rewrite <- H2, (Hold v Hv1). destruct (Hk1 v a x Hv1 H3 H4). split; [done|lia]. }
  assert (HL2 : forall l x, in_field m l x -> l <> 1 -> exists v a, v ∈ L2 /\ lv_id v = l /\ lv_fam v = Some a /\ x ∈ a /\ R l x = -1 + -1 * k2 l x /\ 0 <= k2 l x).
  { intros l x (v & a & H1 & H2 & H3 & H4) Hl. exists v, a. assert (Hv1 : v ∈ L2) by (apply elem_of_list_filter; split; [congruence|done]). do 4 (split; [done|]). rewrite <- H2. destruct (Hk2 v a x Hv1 H3 H4). split; [done|lia]. }
  assert (Hinj : forall l x l' x', in_field m l x -> in_field m l' x' -> R l x = R l' x' -> l = l' /\ x = x').
  { intros l x l' x' Hx Hx' E. destruct (decide (l = 1)) as [Hl|Hl], (decide (l' = 1)) as [Hl'|Hl'].
    - destruct (HL1 l x Hx Hl) as (v & a & V1 & V2 & V3 & V4 & V5 & V6), (HL1 l' x' Hx' Hl') as (v' & a' & V1' & V2' & V3' & V4' & V5' & V6').
      assert (Ek : k1 (lv_id v) x = k1 (lv_id v') x') by (rewrite V2, V2'; lia). destruct (Hi1 v a x v' a' x' V1 V3 V4 V1' V3' V4' Ek). split; [congruence|done].
    - destruct (HL1 l x Hx Hl) as (? & ? & _ & _ & _ & _ & ? & ?), (HL2 l' x' Hx' Hl') as (? & ? & _ & _ & _ & _ & ? & ?). lia.
    - destruct (HL2 l x Hx Hl) as (? & ? & _ & _ & _ & _ & ? & ?), (HL1 l' x' Hx' Hl') as (? & ? & _ & _ & _ & _ & ? & ?). lia.
    - destruct (HL2 l x Hx Hl) as (v & a & V1 & V2 & V3 & V4 & V5 & V6), (HL2 l' x' Hx' Hl') as (v' & a' & V1' & V2' & V3' & V4' & V5' & V6').
      assert (Ek : k2 (lv_id v) x = k2 (lv_id v') x') by (rewrite V2, V2'; lia). destruct (Hi2 v a x v' a' x' V1 V3 V4 V1' V3' V4' Ek). split; [congruence|done]. }
  pose proof (core_names m m2 (L1 ++ L2) R f2 Hv Hd Hone Hall D2) as Hnames. fold m3 in Hnames.
  assert (HF : ordered (fm_fams m)) by apply Hv. assert (HG : ordered (fm_grps m)) by apply Hv.
  pose proof (core_valid m m2 (L1 ++ L2) R f2 Hv Hd Hone Hall D2) as Hv3. fold m3 in Hv3. assert (HF3 : ordered (fm_fams m3)) by apply Hv3.
  assert (Hdisj : forall l l' x, in_field m3 l x -> in_field m3 l' x -> l = l').
  { intros l l' y (x & Hx & ->)%Hin (x' & Hx' & E)%Hin. by destruct (Hinj l x l' x' Hx Hx' E). }
  split; [done|]. split; [|split; [by eapply core_levels|split; [done|split; [done|split; [|split; [done|]]]]]].
  - intros l g e. etransitivity; [apply (core_member m m2 (L1 ++ L2) R f2 Hv Hd Hone Hall D2 l g e)|]. fold m3. rewrite member_iff by done. split.
    + intros (fams & a & x & n & H1 & H2 & H3 & H4 & H5). exists fams, a, x. split; [done|]. split; [done|]. split; [done|].
      destruct (Hnames n) as [Hc _]. destruct Hc as (y & Hy); [exists (R l x); by apply elem_sget|]. apply elem_sget in Hy; [|done].
      destruct (core_id m m2 (L1 ++ L2) R f2 Hv Hd Hone Hall D2 g fams n y H1 H4 Hy) as (l0 & Q1 & Q2 & _). fold m3 in Q2.
      assert (Hxl : in_field m l x) by (apply in_field_iff; [done|]; exists a; split; [done|]; apply elem_of_zlook; eauto).
      destruct (Hinj l x l0 y Hxl Q1) as [-> ->]; [congruence|]. by exists n.
    + intros (fams & a & x & H1 & H2 & H3 & n & H4 & H5). exists fams, a, x, n. do 4 (split; [done|]).
      destruct (core_id m m2 (L1 ++ L2) R f2 Hv Hd Hone Hall D2 g fams n x H1 H4 H5) as (l0 & Q1 & Q2 & Q3). fold m3 in Q2. rewrite Q2. do 2 f_equal. symmetry. apply Q3.
      apply in_field_iff; [done|]; exists a; split; [done|]; apply elem_of_zlook; eauto.
  - intros l y (x & Hx & ->)%Hin. destruct (decide (l = 1)) as [Hl|Hl]; [destruct (HL1 l x Hx Hl) as (? & ? & _ & _ & _ & _ & ? & ?)|destruct (HL2 l x Hx Hl) as (? & ? & _ & _ & _ & _ & ? & ?)]; lia.
  - intros n x (g & fams & Hg & Hnf & Hx). split; [|intros l l' ? ?; by eapply Hdisj]. eapply (core_names_kept m m2 (L1 ++ L2) R f2 Hv Hd Hone Hall D2 n x Hx). exists g, fams. done.
Qed.
Lemma normalize_throw m : fm_fams m = [] -> normalizeFamIdsMEDFile m = Throw /\ normalizeFamIdsTrio m = Throw.
Proof. intros E. unfold normalizeFamIdsMEDFile, normalizeFamIdsTrio. by rewrite ensure_ok, E. Qed.
Lemma id_at_ex m l e : valid m -> (exists x, id_at m l e x) <-> exists x a, fieldOf l m = Some a /\ a @ e = Some x.
Proof. intros Hv. split; intros (x & H); exists x; [by apply id_at_iff in H|by apply id_at_iff]. Qed.
Theorem normalizeTrio_ok m : valid m -> distinct m -> one_level m -> fm_fams m <> [] -> exists m', normalizeFamIdsTrio m = Ok m' /\
  valid m' /\ same_levels m m' /\ (forall g, has_group m' g <-> has_group m g) /\
  (forall l x, in_field m' l x -> if decide (l = 0) then 1 <= x else if decide (l = -1) then x <= -1 else x = 0) /\
  (forall l g e, l = 0 \/ l = -1 -> member m' l g e <-> member m l g e) /\
  (forall l g e, l <> 0 -> l <> -1 -> member m' l g e <-> (exists x, id_at m l e x) /\ exists l' e', l' <> 0 /\ l' <> -1 /\ member m l' g e').
Proof.
  intros Hv Hd Hone Hne. unfold normalizeFamIdsTrio. rewrite ensure_ok. replace (match fm_fams m with [] => Throw | _ :: _ => Ok (true, m) end) with (Ok (true, m)) by (by destruct (fm_fams m)). cbn [bind].
  assert (Hn : NoDup (lv_id <$> fm_levs m)) by apply Hv.
  set (L1 := filter (fun v => lv_id v = 0) (fm_levs m)). set (L2 := filter (fun v => lv_id v = -1) (fm_levs m)). set (L3 := filter (fun v => lv_id v <> 0 /\ lv_id v <> -1) (fm_levs m)).
  assert (Hall : forall v, v ∈ fm_levs m <-> v ∈ (L1 ++ L2) ++ L3).
  { intros v. rewrite !elem_of_app. unfold L1, L2, L3. rewrite !elem_of_list_filter. destruct (decide (lv_id v = 0)), (decide (lv_id v = -1)); tauto. }
  assert (Hnd : NoDup (lv_id <$> ((L1 ++ L2) ++ L3))).
  { rewrite !fmap_app. apply NoDup_app. split; [|split; [|by apply nodup_filter_ids]].
    - apply NoDup_app. split; [by apply nodup_filter_ids|]. split; [|by apply nodup_filter_ids]. intros x (v & -> & [E _]%elem_of_list_filter)%elem_of_list_fmap (w & Ew & [E' _]%elem_of_list_filter)%elem_of_list_fmap. lia.
    - intros x [(v & -> & [E _]%elem_of_list_filter)%elem_of_list_fmap|(v & -> & [E _]%elem_of_list_filter)%elem_of_list_fmap]%elem_of_app (w & Ew & [E' _]%elem_of_list_filter)%elem_of_list_fmap; lia. }
  assert (Hnd12 : NoDup (lv_id <$> (L1 ++ L2))) by (rewrite fmap_app in Hnd; by apply NoDup_app in Hnd as [? _]).
  destruct (phase_ok m Hv Hd 1 1 L1 [] (fun _ x => x) [] m) as (ref1 & f1 & m1 & R1 & k1 & K1 & E1 & D1 & _ & HK1 & Hr1 & Hk1 & Hi1).
  { intros v Hvv. apply Hall. rewrite !elem_of_app. tauto. } { rewrite fmap_app in Hnd12. by apply NoDup_app in Hnd12 as [? _]. } { by apply blank9. }
  rewrite E1. cbn [bind]. cbn [app] in D1.
  destruct (phase_ok m Hv Hd (-1) (-1) L2 L1 R1 f1 m1) as (ref2 & f2 & m2 & R2 & k2 & K2 & E2 & D2 & Hold2 & HK2 & Hr2 & Hk2 & Hi2); [intros v Hvv; apply Hall, elem_of_app; by left|done|done|].
  rewrite E2. cbn [bind].
  destruct (phase_ok m Hv Hd 0 0 L3 (L1 ++ L2) R2 f2 m2) as (ref3 & f3 & m3' & R & k3 & K3 & E3 & D3 & Hold3 & HK3 & Hr3 & Hk3 & _); [intros v; apply Hall|done|done|].
  rewrite E3. cbn [bind]. set (m3 := withMaps m3' (keepOthers m f3) (fm_grps m)). exists m3. split; [done|].
  pose proof (core_in_field m m3' _ R f3 Hv Hd Hone Hall D3) as Hin. fold m3 in Hin.
  assert (HL1 : forall l x, in_field m l x -> l = 0 -> exists v a, v ∈ L1 /\ lv_id v = l /\ lv_fam v = Some a /\ x ∈ a /\ R l x = 1 + 1 * k1 l x /\ 0 <= k1 l x).
  { intros l x (v & a & H1 & H2 & H3 & H4) Hl. exists v, a. assert (Hv1 : v ∈ L1) by (apply elem_of_list_filter; split; [congruence|done]). do 4 (split; [done|]). rewrite <- H2, (Hold3 v), (Hold2 v Hv1) by (apply elem_of_app; by left). destruct (Hk1 v a x Hv1 H3 H4). split; [done|lia]. }
  assert (HL2 : forall l x, in_field m l x -> l = -1 -> exists v a, v ∈ L2 /\ lv_id v = l /\ lv_fam v = Some a /\ x ∈ a /\ R l x = -1 + -1 * k2 l x /\ 0 <= k2 l x).
  { intros l x (v & a & H1 & H2 & H3 & H4) Hl. exists v, a. assert (Hv1 : v ∈ L2) by (apply elem_of_list_filter; split; [congruence|done]). do 4 (split; [done|]). rewrite <- H2, (Hold3 v) by (apply elem_of_app; by right). destruct (Hk2 v a x Hv1 H3 H4). split; [done|lia]. }
  assert (HL3 : forall l x, in_field m l x -> l <> 0 -> l <> -1 -> R l x = 0).
  { intros l x (v & a & H1 & H2 & H3 & H4) Hl Hl'. assert (Hv1 : v ∈ L3) by (apply elem_of_list_filter; split; [split; congruence|done]). rewrite <- H2. destruct (Hk3 v a x Hv1 H3 H4). lia. }
  assert (Hinj : forall l x l' x', in_field m l x -> in_field m l' x' -> R l x = R l' x' -> l = 0 \/ l = -1 -> l = l' /\ x = x').
  { intros l x l' x' Hx Hx' E [Hl|Hl].
    - destruct (HL1 l x Hx Hl) as (v & a & V1 & V2 & V3 & V4 & V5 & V6). destruct (decide (l' = 0)) as [Hl'|Hl']; [|destruct (decide (l' = -1)) as [Hl2|Hl2]; [destruct (HL2 l' x' Hx' Hl2) as (? & ? & _ & _ & _ & _ & ? & ?); lia|pose proof (HL3 l' x' Hx' Hl' Hl2); lia]].
      destruct (HL1 l' x' Hx' Hl') as (v' & a' & V1' & V2' & V3' & V4' & V5' & V6').
      assert (Ek : k1 (lv_id v) x = k1 (lv_id v') x') by (rewrite V2, V2'; lia). destruct (Hi1 v a x v' a' x' V1 V3 V4 V1' V3' V4' Ek). split; [congruence|done].
    - destruct (HL2 l x Hx Hl) as (v & a & V1 & V2 & V3 & V4 & V5 & V6). destruct (decide (l' = -1)) as [Hl'|Hl']; [|destruct (decide (l' = 0)) as [Hl2|Hl2]; [destruct (HL1 l' x' Hx' Hl2) as (? & ? & _ & _ & _ & _ & ? & ?); lia|pose proof (HL3 l' x' Hx' Hl2 Hl'); lia]].
      destruct (HL2 l' x' Hx' Hl') as (v' & a' & V1' & V2' & V3' & V4' & V5' & V6').
      assert (Ek : k2 (lv_id v) x = k2 (lv_id v') x') by (rewrite V2, V2'; lia). destruct (Hi2 v a x v' a' x' V1 V3 V4 V1' V3' V4' Ek). split; [congruence|done]. }
  pose proof (core_names m m3' _ R f3 Hv Hd Hone Hall D3) as Hnames. fold m3 in Hnames.
  assert (HF : ordered (fm_fams m)) by apply Hv. assert (HG : ordered (fm_grps m)) by apply Hv.
  pose proof (core_valid m m3' _ R f3 Hv Hd Hone Hall D3) as Hv3. fold m3 in Hv3. assert (HF3 : ordered (fm_fams m3)) by apply Hv3.
  assert (Hid : forall l e x a, fieldOf l m = Some a -> a @ e = Some x -> in_field m l x) by (intros l e x a ? ?; apply in_field_iff; [done|]; exists a; split; [done|]; apply elem_of_zlook; eauto).
  assert (Hfam : forall n z, sget n (fm_fams m3) = Some z -> exists y, sget n (fm_fams m) = Some y).
  { intros n z Hz. destruct (Hnames n) as [Hc _]. destruct Hc as (y & Hy); [exists z; by apply elem_sget|]. apply elem_sget in Hy; [|done]. eauto. }
  split; [done|]. split; [by eapply core_levels|]. split; [done|]. split; [|split].
  - intros l y (x & Hx & ->)%Hin. destruct (decide (l = 0)) as [Hl|Hl]; [destruct (HL1 l x Hx Hl) as (? & ? & _ & _ & _ & _ & ? & ?); lia|].
    destruct (decide (l = -1)) as [Hl2|Hl2]; [destruct (HL2 l x Hx Hl2) as (? & ? & _ & _ & _ & _ & ? & ?); lia|]. by apply HL3.
  - intros l g e Hl. etransitivity; [apply (core_member m m3' _ R f3 Hv Hd Hone Hall D3 l g e)|]. fold m3. rewrite member_iff by done. split.
    + intros (fams & a & x & n & H1 & H2 & H3 & H4 & H5). exists fams, a, x. split; [done|]. split; [done|]. split; [done|].
      destruct (Hfam n _ H5) as (y & Hy). destruct (core_id m m3' _ R f3 Hv Hd Hone Hall D3 g fams n y H1 H4 Hy) as (l0 & Q1 & Q2 & _). fold m3 in Q2.
      destruct (Hinj l x l0 y (Hid l e x a H2 H3) Q1) as [-> ->]; [congruence|done|]. by exists n.
    + intros (fams & a & x & H1 & H2 & H3 & n & H4 & H5). exists fams, a, x, n. do 4 (split; [done|]).
      destruct (core_id m m3' _ R f3 Hv Hd Hone Hall D3 g fams n x H1 H4 H5) as (l0 & Q1 & Q2 & Q3). fold m3 in Q2. rewrite Q2. do 2 f_equal. symmetry. apply Q3. by eapply Hid.
  - intros l g e Hl0 Hl1. etransitivity; [apply (core_member m m3' _ R f3 Hv Hd Hone Hall D3 l g e)|]. fold m3. rewrite id_at_ex by done. split.
    + intros (fams & a & x & n & H1 & H2 & H3 & H4 & H5). split; [exists x, a; done|].
      destruct (Hfam n _ H5) as (y & Hy). destruct (core_id m m3' _ R f3 Hv Hd Hone Hall D3 g fams n y H1 H4 Hy) as (l0 & Q1 & Q2 & _). fold m3 in Q2.
      rewrite (HL3 l x (Hid l e x a H2 H3) Hl0 Hl1) in H5. assert (E0 : R l0 y = 0) by congruence.
      assert (l0 <> 0) by (intros ->; destruct (HL1 0 y Q1 eq_refl) as (? & ? & _ & _ & _ & _ & ? & ?); lia).
      assert (l0 <> -1) by (intros ->; destruct (HL2 (-1) y Q1 eq_refl) as (? & ? & _ & _ & _ & _ & ? & ?); lia).
      apply in_field_iff in Q1 as (b & Hb & (e' & He')%elem_of_zlook); [|done]. exists l0, e'. split; [done|]. split; [done|]. apply member_iff; [done|]. exists fams, b, y. do 3 (split; [done|]). by exists n.
    + intros [(x & a & H2 & H3) (l' & e' & Hl' & Hl'' & Hm)]. apply member_iff in Hm as (fams & b & y & H1 & Hb & He' & n & H4 & Hy); [|done]. exists fams, a, x, n. do 4 (split; [done|]).
      destruct (core_id m m3' _ R f3 Hv Hd Hone Hall D3 g fams n y H1 H4 Hy) as (l0 & Q1 & Q2 & Q3). fold m3 in Q2. pose proof (Hid l' e' y b Hb He') as Hy'. rewrite <- (Q3 l' Hy') in Q2.
      rewrite Q2, (HL3 l' y Hy' Hl' Hl''), (HL3 l x (Hid l e x a H2 H3) Hl0 Hl1). done.
Qed.
