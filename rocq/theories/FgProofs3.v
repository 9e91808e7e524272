(** One turn of the loop of addGroup. *)
From stdpp Require Import strings.
From Coq Require Import ZifyBool ZifyNat.
From Verif Require Import Base DataArray StdModel StdProofs ArrLib RenumModel RenumSpec RenumProofs PermProofs SearchModel SearchSpec SearchProofs SetsModel SetsProofs FgModel FgSpec FgProofs FgProofs2.

Definition uniq (F : list (string * Z)) : Prop := forall n n' x, sget n F = Some x -> sget n' F = Some x -> n = n'.
Lemma nameOfId_Some id F n : ordered F -> nameOfId id F = Some n -> sget n F = Some id.
Proof.
  intros Ho. unfold nameOfId. intros ((i & p) & H & H')%bind_Some. injection H' as <-. apply list_find_Some in H as (H1 & H2 & _).
  apply elem_of_list_lookup_2 in H1. apply elem_sget; [done|]. destruct p as [k x]. cbn in *. by subst.
Qed.
Lemma nameOfId_None id F : ordered F -> nameOfId id F = None -> forall n, sget n F <> Some id.
Proof.
  intros Ho. unfold nameOfId. destruct (list_find (fun p : string * Z => p.2 = id) F) as [[i p]|] eqn:E; [done|]. intros _ n H.
  apply list_find_None in E. rewrite Forall_forall in E. apply elem_sget in H; [|done]. apply E in H. done.
Qed.
Lemma nameOfId_uniq id F n : ordered F -> uniq F -> sget n F = Some id -> nameOfId id F = Some n.
Proof.
  intros Ho Hu H. destruct (nameOfId id F) as [n'|] eqn:E.
  - apply nameOfId_Some in E; [|done]. f_equal. by apply (Hu _ _ id).
  - by apply nameOfId_None with (n := n) in E.
Qed.
Lemma findOrCreate_ok id F : ordered F -> uniq F -> exists n b F', findOrCreate id F = Ok (n, b, F') /\ ordered F' /\ uniq F' /\
  sget n F' = Some id /\ (forall k x, sget k F = Some x -> sget k F' = Some x) /\
  (forall k x, sget k F' = Some x -> sget k F = Some x \/ (k = n /\ x = id /\ sget n F = None)) /\
  ((forall k, sget k F <> Some id) -> sget n F = None).
Proof.
  intros Ho Hu. unfold findOrCreate. destruct (nameOfId id F) as [n|] eqn:E.
  - apply nameOfId_Some in E; [|done]. exists n, false, F. do 4 (split; [done|]). split; [done|]. split; [tauto|]. intros H. by apply H in E.
  - destruct (familyName_ok id F.*1) as (n & -> & Hn). cbn [bind]. exists n, true, (sput n id F). apply sget_keys in Hn.
    pose proof (nameOfId_None _ _ Ho E) as Hno. split; [done|]. split; [by apply ordered_sput|]. split.
    { intros k k' x. rewrite !sget_sput. destruct (bool_decide_reflect (k = n)) as [->|?], (bool_decide_reflect (k' = n)) as [->|?]; [done| | |].
      - intros [= <-] Hk. by apply Hno in Hk.
      - intros Hk [= <-]. by apply Hno in Hk.
      - apply Hu. }
    split; [by rewrite sget_sput, bool_decide_eq_true_2|]. split.
    { intros k x H. rewrite sget_sput. case_bool_decide; [congruence|done]. }
    split; [|done]. intros k x. rewrite sget_sput. case_bool_decide; [|by left]. intros [= <-]. right. subst. done.
Qed.

Lemma setIds_ok v w a : (forall e, e ∈ w -> 0 <= e < zlen a) ->
  exists a', setIds v w a = Ok a' /\ zlen a' = zlen a /\ (forall e, e ∈ w -> a' @ e = Some v) /\ (forall e, e ∉ w -> a' @ e = a @ e).
Proof.
  unfold setIds. revert a. induction w as [|e w IH]; intros a Hr; cbn [foldM].
  - exists a. split; [done|]. split; [done|]. split; [by intros ? ?%elem_of_nil|done].
  - assert (He : 0 <= e < zlen a) by (apply Hr; by left). replace ((0 <=? e) && (e <? zlen a)) with true by lia.
    rewrite wr_ok by lia. cbn [bind]. destruct (IH (zset a e v)) as (a' & H1 & H2 & H3 & H4).
    { intros e' He'. rewrite zlen_zset. apply Hr. by right. }
    rewrite H1. exists a'. split; [done|]. rewrite H2, zlen_zset. split; [done|]. split.
    + intros e' [->|Hin]%elem_of_cons; [|by apply H3]. destruct (decide (e ∈ w)) as [Hi|Hi]; [by apply H3|]. rewrite H4 by done.
      rewrite zlook_zset by lia. by rewrite Z.eqb_refl.
    + intros e' [Hne Hn]%not_elem_of_cons. rewrite H4 by done. rewrite zlook_zset by lia. destruct (Z.eqb_spec e' e); [done|done].
Qed.
Lemma unwrap_gen (l r : list Z) : foldM (fun r x => match x with Some x => Ok (r ++ [x]) | None => UB end) (Some <$> l) r = Ok (r ++ l).
Proof.
  revert r. induction l as [|x l IH]; intros r; [by rewrite app_nil_r|]. rewrite fmap_cons. cbn [foldM bind]. rewrite IH. by rewrite <- app_assoc.
Qed.
Lemma unwrap_ok (l : list Z) : foldM (fun r x => match x with Some x => Ok (r ++ [x]) | None => UB end) (Some <$> l) [] = Ok l.
Proof. apply unwrap_gen. Qed.
Lemma vec_ij (l : list Z) i : ij (vec l) i 0 = l @ i.
Proof. unfold ij. cbn [da_nc da_vals vec]. destruct (Z.leb_spec 0 i); cbn; [f_equal; lia|]. symmetry. apply zlook_None. lia. Qed.
Lemma select1_ok (l ids : list Z) : (forall v, v ∈ ids -> 0 <= v < zlen l) ->
  exists r, mySelectByTupleId (vec l) ids = Ok (DA true 1 (Some <$> r)) /\ zlen r = zlen ids /\ forall i t, ids @ i = Some t -> r @ i = l @ t.
Proof.
  intros H. destruct (select_ok (vec l) ids) as (r & H1 & H2 & H3); [done|apply da_wf_vec|by rewrite da_nt_vec|]. exists r. split; [done|].
  cbn [da_nc vec] in H2. split; [lia|]. intros i t Ht. specialize (H3 i t Ht 0). rewrite vec_ij in H3. rewrite <- H3. symmetry. apply (vec_ij r).
Qed.
Lemma presence_ok v a : exists b : bool, presence v a = Ok b /\ (b = true <-> v ∈ a).
Proof.
  unfold presence. destruct (findIdFirstEqual_ok (vec a) eq_refl eq_refl v) as (i & -> & Hw). cbn [bind]. eexists. split; [done|].
  cbn [da_vals vec] in Hw. destruct Hw as [[-> H]|(x & H1 & -> & _)].
  - cbn. split; [done|]. intros (k & Hk)%elem_of_zlook. by apply H in Hk.
  - apply zlook_Some_lt in H1 as Hi. split; [intros _; by apply zlook_elem in H1|]. intros _. lia.
Qed.
Lemma presenceAny_ok vs a : exists b : bool, presenceAny vs a = Ok b /\ (b = true <-> exists v, v ∈ vs /\ v ∈ a).
Proof.
  unfold presenceAny. destruct (findIdFirstEqualAny_ok (vec a) eq_refl eq_refl vs) as (i & -> & Hw). cbn [bind]. eexists. split; [done|].
  cbn [da_vals vec] in Hw. destruct Hw as [[-> H]|(x & H1 & H2 & _)].
  - cbn. split; [done|]. intros (v & Hv & (k & Hk)%elem_of_zlook). by apply H in Hk.
  - apply zlook_Some_lt in H1 as Hi. split; [intros _; apply zlook_elem in H1; eauto|]. intros _. lia.
Qed.

Section Loop.
  Context (m : fmesh) (sg mx : Z) (ids a famIds : list Z) (others : list (list Z)).
  Let F0 := fm_fams m. Let G0 := fm_grps m.
  Hypothesis Hsg : sg = 1 \/ sg = -1.
  Hypothesis HF0 : ordered F0. Hypothesis HG0 : ordered G0. Hypothesis HU0 : uniq F0.
  Hypothesis Hinc : increasing ids.
  Hypothesis Hids : forall e, e ∈ ids -> 0 <= e < zlen a.
  Hypothesis Hfl : zlen famIds = zlen ids.
  Hypothesis Hfi : forall i e, ids @ i = Some e -> famIds @ i = a @ e.
  Hypothesis Hmx : 0 <= mx.
  Hypothesis HmF : forall n x, sget n F0 = Some x -> Z.abs x <= mx.
  Hypothesis Hma : forall x, x ∈ a -> Z.abs x <= mx.
  Hypothesis Hmo : forall o x, o ∈ others -> x ∈ o -> Z.abs x <= mx.
  Definition oth (x : Z) : Prop := exists o, o ∈ others /\ x ∈ o.
  (** Families of groups exist; an id of theirs used on this level is not 0 and not used on another one. *)
  Hypothesis Hcl : forall g l n, sget g G0 = Some l -> n ∈ l -> exists x, sget n F0 = Some x.
  Hypothesis Hap : forall g l n x, sget g G0 = Some l -> n ∈ l -> sget n F0 = Some x -> x <> 0 /\ (x ∈ a -> ~ oth x).
  Hypothesis Hbo : forall x, x ∈ a -> x = 0 \/ exists n id, sget n F0 = Some id /\ Z.abs x <= Z.abs id.

  Definition st : Type := list (Z * list Z) * list (string * Z) * list (string * list string) * list string * Z.
  Definition keepG (ak : list Z) (F : list (string * Z)) (l0 l1 : list string) : Prop :=
    (forall n, n ∈ l1 -> exists x, sget n F = Some x /\ (n ∈ l0 \/ mx < Z.abs x)) /\
    (forall e x y, a @ e = Some x -> ak @ e = Some y -> inG F l1 y <-> inG F0 l0 x) /\
    (forall x, oth x -> inG F l1 x <-> inG F0 l0 x) /\ (NoDup l0 -> NoDup l1).
  Definition Inv (D : list Z) (s : st) : Prop :=
    let '(W, F, G, fs, M) := s in
    exists ak, foldM (fun a '(v, w) => setIds v w a) W a = Ok ak /\ zlen ak = zlen a /\ mx + 1 <= M /\ ordered F /\ ordered G /\ uniq F /\
    (forall n x, sget n F0 = Some x -> sget n F = Some x) /\
    (forall n x, sget n F = Some x -> Z.abs x < M /\ (sget n F0 = Some x \/ (x ∈ D /\ ~ oth x /\ x <> 0) \/ mx < Z.abs x)) /\
    (forall e x, a @ e = Some x -> x ∉ D -> ak @ e = Some x) /\
    (forall e x, a @ e = Some x -> x ∈ D -> exists y, ak @ e = Some y /\ ((y = x /\ e ∈ ids) \/ mx < Z.abs y < M) /\ (inG F fs y <-> e ∈ ids)) /\
    (NoDup fs /\ forall n, n ∈ fs -> exists x, sget n F = Some x /\ x <> 0 /\ ~ oth x /\ (x ∈ D \/ mx < Z.abs x) /\ exists e, e ∈ ids /\ ak @ e = Some x) /\
    (forall y, y ∈ ak -> y = 0 \/ exists n id, sget n F = Some id /\ Z.abs y <= Z.abs id) /\
    forall g, match sget g G0, sget g G with None, None => True | Some l0, Some l1 => keepG ak F l0 l1 | _, _ => False end.

  (** The part of the entities that have family id [f]. *)
  Local Lemma prep f : exists ids2 ids1 ret0,
    (let* pos := findIdsEqual f (vec famIds) in let* r := mySelectByTupleId (vec ids) pos in
     foldM (fun r x => match x with Some x => Ok (r ++ [x]) | None => UB end) (da_vals r) []) = Ok ids2 /\
    findIdsEqual f (vec a) = Ok ids1 /\ buildSubstractionOptimized (vec ids1) (Some (vec ids2)) = Ok ret0 /\
    (forall e, e ∈ ids2 <-> e ∈ ids /\ a @ e = Some f) /\ (forall e, e ∈ ret0 <-> e ∉ ids /\ a @ e = Some f).
  Proof using All.
    destruct (findIdsEqual_ok (vec famIds) eq_refl eq_refl f) as (pos & Hp & Hpi & Hpe). cbn [da_vals vec] in Hpe.
    destruct (select1_ok ids pos) as (r & Hr & Hrl & Hrv). { intros v (x & Hx%zlook_Some_lt & _)%Hpe. lia. }
    destruct (findIdsEqual_ok (vec a) eq_refl eq_refl f) as (ids1 & H1 & H1i & H1e). cbn [da_vals vec] in H1e.
    assert (Her : forall e, e ∈ r <-> e ∈ ids /\ a @ e = Some f).
    { intros e. split.
      - intros (i & Hi)%elem_of_zlook. assert (exists t, pos @ i = Some t) as [t Ht]. { apply zlook_lt. apply zlook_Some_lt in Hi. lia. }
        pose proof (Hrv i t Ht) as E. rewrite Hi in E. symmetry in E. apply zlook_elem in E as Hin. split; [done|].
        rewrite <- (Hfi _ _ E). apply zlook_elem in Ht. apply Hpe in Ht as (v & -> & ->). done.
      - intros [(t & Ht)%elem_of_zlook He]. assert (Hin : t ∈ pos). { apply Hpe. exists f. split; [|done]. by rewrite (Hfi _ _ Ht). }
        apply elem_of_zlook in Hin as [i Hi]. pose proof (Hrv i t Hi) as E. rewrite Ht in E. by apply zlook_elem in E. }
    assert (Hri : increasing r).
    { intros i j x y Hij Hx Hy. assert (exists t, pos @ i = Some t) as [t Ht]. { apply zlook_lt. apply zlook_Some_lt in Hx. lia. }
      assert (exists u, pos @ j = Some u) as [u Hu]. { apply zlook_lt. apply zlook_Some_lt in Hy. lia. }
      pose proof (Hrv i t Ht) as E. rewrite Hx in E. pose proof (Hrv j u Hu) as E'. rewrite Hy in E'.
      apply (Hinc t u); [|done|done]. by apply (Hpi i j). }
    assert (H1e' : forall e, e ∈ ids1 <-> a @ e = Some f). { intros e. rewrite H1e. split; [intros (v & -> & ->); done|eauto]. }
    destruct (subOpt_ok ids1 r) as [Hs Hx]; [by apply increasing_SS..| |].
    { intros x [_ Hx]%Her. by apply H1e'. }
    exists r, ids1, (subOptLoop ids1 r). split.
    { rewrite Hp. cbn [bind]. rewrite Hr. cbn [bind da_vals]. apply unwrap_ok. }
    split; [done|]. split; [done|]. split; [done|].
    intros e. rewrite Hx, H1e', Her. tauto.
  Qed.
  Local Lemma present_ok f : exists b : bool, foldM (fun (b : bool) o => if b then Ok true else presence f o) others false = Ok b /\ (b = true <-> oth f).
  Proof using All.
    unfold oth. assert (G : forall os (b0 : bool), exists b : bool, foldM (fun (b : bool) o => if b then Ok true else presence f o) os b0 = Ok b /\
      (b = true <-> b0 = true \/ exists o, o ∈ os /\ f ∈ o)).
    { induction os as [|o os IH]; intros b0; cbn [foldM].
      - exists b0. split; [done|]. split; [by left|]. intros [?|(o & ?%elem_of_nil & _)]; done.
      - destruct b0; cbn [bind].
        + destruct (IH true) as (b & -> & Hb). exists b. split; [done|]. split; [by left|]. intros _. apply Hb. by left.
        + destruct (presence_ok f o) as (b1 & -> & Hb1). cbn [bind]. destruct (IH b1) as (b & -> & Hb). exists b. split; [done|]. rewrite Hb, Hb1. split.
          * intros [H|(o' & H1 & H2)]; right; [exists o; split; [left|done]|exists o'; split; [by right|done]].
          * intros [H|(o' & [H1|H1]%elem_of_cons & H2)]; [done|subst; by left|right; eauto]. }
    destruct (G others false) as (b & Hb & E). exists b. split; [done|]. rewrite E. split; [by intros [?|?]|by right].
  Qed.
  Local Lemma abs_sg x : Z.abs (sg * x) = Z.abs x.
  Proof using All. destruct Hsg as [-> | ->]; lia. Qed.

  Local Lemma inG_mono (F F' : list (string * Z)) l x : (forall k y, sget k F = Some y -> sget k F' = Some y) -> (forall n, n ∈ l -> exists y, sget n F = Some y) ->
    inG F' l x <-> inG F l x.
  Proof using All.
    intros Hs Hr. unfold inG. split; intros (n & Hn & Hx); exists n; (split; [done|]).
    - destruct (Hr n Hn) as [y Hy]. pose proof (Hs _ _ Hy). congruence.
    - by apply Hs.
  Qed.
  Local Lemma keepG_mono F F' ak l0 l1 : (forall k y, sget k F = Some y -> sget k F' = Some y) -> keepG ak F l0 l1 -> keepG ak F' l0 l1.
  Proof using All.
    intros Hs (H1 & H2 & H3 & H4). assert (Hm : forall x, inG F' l1 x <-> inG F l1 x).
    { intros x. apply inG_mono; [done|]. intros n Hn. destruct (H1 n Hn) as (y & ? & _). eauto. }
    split; [|split; [|split]].
    - intros n Hn. destruct (H1 n Hn) as (y & Hy & Ho). exists y. split; [by apply Hs|done].
    - intros e x y Ha Hy. rewrite Hm. by apply H2 with e.
    - intros x Hx. rewrite Hm. by apply H3.
    - done.
  Qed.
  Local Lemma keep_inv D W F G fs M f n F' : Inv D (W, F, G, fs, M) -> f ∈ a -> f ∉ D -> ~ oth f -> f <> 0 -> (forall e, a @ e = Some f -> e ∈ ids) ->
    ordered F' -> uniq F' -> sget n F' = Some f -> (forall k x, sget k F = Some x -> sget k F' = Some x) ->
    (forall k x, sget k F' = Some x -> sget k F = Some x \/ (k = n /\ x = f)) -> Inv (D ++ [f]) (W ++ [(f, [])], F', G, fs ++ [n], M).
  Proof using All.
    intros (ak & H1 & H2 & H3 & H4 & H5 & H6 & H7 & H8 & H9 & H10 & [H14 H11] & H12 & H13) Hfa HfD Hno Hf0 Hall Ho Hu Hn Hs Hb.
    assert (Hfm : Z.abs f <= mx) by (apply Hma; done).
    exists ak. split. { rewrite foldM_app, H1. done. }
    do 2 (split; [done|]). split; [done|]. split; [done|]. split; [done|]. split; [intros k x Hk; apply Hs; by apply H7|]. split.
    { intros k x Hk. apply Hb in Hk as [Hk|[-> ->]].
      - apply H8 in Hk as [? [?|[(? & ? & ?)|?]]]; (split; [done|]); [by left|right; left; rewrite elem_of_app; tauto|tauto].
      - split; [lia|]. right; left. rewrite elem_of_app, elem_of_list_singleton. tauto. }
    split. { intros e x Hx Hd. apply H9; [done|]. rewrite elem_of_app in Hd. tauto. }
    assert (Hreg : forall k, k ∈ fs -> exists y, sget k F = Some y). { intros k Hk. destruct (H11 k Hk) as (y & ? & _). eauto. }
    split.
    { intros e x Hx Hd. rewrite elem_of_app, elem_of_list_singleton in Hd. destruct (decide (x = f)) as [->|Hxf].
      - exists f. split; [by apply H9|]. split; [left; split; [done|by apply Hall]|]. split; [intros _; by apply Hall|]. intros _. exists n. rewrite elem_of_app, elem_of_list_singleton. tauto.
      - destruct (H10 e x Hx) as (y & Hy & Hc & Hi); [tauto|]. exists y. split; [done|]. split; [done|]. rewrite <- Hi, <- (inG_mono F F' fs y Hs Hreg). unfold inG. split.
        + intros (k & Hk & Hky). rewrite elem_of_app, elem_of_list_singleton in Hk. destruct Hk as [Hk| ->]; [eauto|]. exfalso.
          assert (y = f) by congruence. subst y. destruct Hc as [[? _]|?]; [congruence|lia].
        + intros (k & Hk & Hky). exists k. rewrite elem_of_app. tauto. }
    split.
    { split.
      { apply NoDup_app. split; [done|]. split; [|apply NoDup_singleton]. intros k Hk ->%elem_of_list_singleton. destruct (H11 n Hk) as (y & Hy & _ & _ & Hd & _).
        apply Hs in Hy. assert (y = f) by congruence. subst y. destruct Hd; [done|lia]. }
      intros k Hk. rewrite elem_of_app, elem_of_list_singleton in Hk. destruct Hk as [Hk| ->].
      - destruct (H11 k Hk) as (y & Hy & ? & ? & Hd & He). exists y. split; [by apply Hs|]. do 2 (split; [done|]). rewrite elem_of_app. tauto.
      - exists f. do 3 (split; [done|]). split; [left; rewrite elem_of_app, elem_of_list_singleton; tauto|].
        apply elem_of_zlook in Hfa as [e He]. exists e. split; [by apply Hall|by apply H9]. }
    split.
    { intros y Hy. destruct (H12 y Hy) as [?|(k & id & ? & ?)]; [by left|]. right. exists k, id. split; [by apply Hs|done]. }
    intros g. specialize (H13 g). destruct (sget g G0), (sget g G); try done. by apply (keepG_mono F).
  Qed.

  (** How the list of a group may change. *)
  Definition changed (f : Z) (N : list string) (l1 l1' : list string) : Prop :=
    match nameOfId f F0 with
    | None => l1' = l1
    | Some o => (forall k, k <> o -> k ∉ N -> k ∈ l1' <-> k ∈ l1) /\ (o ∈ l1' -> o ∈ l1) /\ ((o ∈ l1 -> ~ oth f) \/ (o ∈ l1 -> o ∈ l1')) /\ (forall k, k ∈ N -> k ∈ l1' <-> o ∈ l1) /\ (NoDup l1 -> NoDup l1')
    end.
  Local Lemma new_inv D W F G fs M f Wn F' G' n z z1 M' N ak' : Inv D (W, F, G, fs, M) -> (exists e, e ∈ ids /\ a @ e = Some f) -> f ∉ D ->
    ordered F' -> uniq F' -> (forall k x, sget k F = Some x -> sget k F' = Some x) ->
    (forall k x, sget k F' = Some x -> sget k F = Some x \/ (sget k F = None /\ M <= Z.abs x < M')) ->
    M <= M' -> sget n F' = Some z -> M <= Z.abs z < M' -> 
    (forall k, k ∈ N -> sget k F = None) ->
    ((exists o, nameOfId f F0 = Some o) -> n ∈ N /\ ((exists e, a @ e = Some f /\ e ∉ ids) -> exists k, k ∈ N /\ sget k F' = Some z1)) ->
    (forall ak, foldM (fun a '(v, w) => setIds v w a) W a = Ok ak -> zlen ak = zlen a -> foldM (fun a '(v, w) => setIds v w a) Wn ak = Ok ak' /\ zlen ak' = zlen a /\
      (forall e, a @ e <> Some f -> ak' @ e = ak @ e)) ->
    (forall e, a @ e = Some f -> e ∈ ids -> ak' @ e = Some z) ->
    (forall e, a @ e = Some f -> e ∉ ids -> ak' @ e = Some z1 /\ M <= Z.abs z1 < Z.abs z) ->
    ordered G' -> (forall g, match sget g G, sget g G' with None, None => True | Some l1, Some l1' => (forall k, k ∈ l1' -> k ∈ l1 \/ k ∈ N /\ exists y, sget k F' = Some y) /\ changed f N l1 l1' | _, _ => False end) ->
    Inv (D ++ [f]) (W ++ Wn, F', G', fs ++ [n], M').
  Proof using All.
    intros (ak & H1 & H2 & H3 & H4 & H5 & H6 & H7 & H8 & H9 & H10 & [H14 H11] & H12 & H13) Hfa HfD Ho Hu Hs Hb HM Hn Hz HN Hreg Hw Hz2 Hz1 HoG HG.
    assert (Hfm : Z.abs f <= mx). { destruct Hfa as (e & _ & He). apply Hma. by apply zlook_elem in He. }
    destruct (Hw ak H1 H2) as (Hw1 & Hw2 & Hw3). clear Hw.
    assert (Hlow : forall e x y, a @ e = Some x -> x <> f -> ak @ e = Some y -> ak' @ e = Some y /\ y <> f /\ Z.abs y < M).
    { intros e x y Hx Hxf Hy. split; [rewrite Hw3; [done|congruence]|]. destruct (decide (x ∈ D)) as [Hd|Hd].
      - destruct (H10 e x Hx Hd) as (y' & Hy' & Hc & _). assert (y' = y) by congruence. subst y'. destruct Hc as [[-> _]|?].
        + split; [done|]. apply zlook_elem in Hx. apply Hma in Hx. lia.
        + split; [intros ->; lia|lia].
      - rewrite (H9 e x Hx Hd) in Hy. injection Hy as <-. split; [done|]. apply zlook_elem in Hx. apply Hma in Hx. lia. }
    assert (Hfe : forall e, a @ e = Some f -> ak @ e = Some f) by (intros e He; by apply H9).
    assert (Hnew : forall e y, a @ e = Some f -> ak' @ e = Some y -> M <= Z.abs y < M' /\ ((y = z /\ e ∈ ids) \/ (y = z1 /\ e ∉ ids /\ Z.abs z1 < Z.abs z))).
    { intros e y He Hy. destruct (decide (e ∈ ids)) as [Hi|Hi].
      - rewrite (Hz2 e He Hi) in Hy. injection Hy as <-. split; [done|]. by left.
      - destruct (Hz1 e He Hi) as [Hy' ?]. rewrite Hy' in Hy. injection Hy as <-. split; [lia|]. right. split; [done|]. split; [done|lia]. }
    exists ak'. split. { rewrite foldM_app, H1. done. }
    split; [done|]. split; [lia|]. split; [done|]. split; [done|]. split; [done|]. split; [intros k x Hk; apply Hs; by apply H7|]. split.
    { intros k x Hk. apply Hb in Hk as [Hk|[_ Hk]].
      - apply H8 in Hk as [? [?|[(? & ? & ?)|?]]]; (split; [lia|]); [by left|right; left; rewrite elem_of_app; tauto|tauto].
      - split; [lia|]. right; right. lia. }
    split.
    { intros e x Hx Hd. rewrite elem_of_app, elem_of_list_singleton in Hd. rewrite Hw3 by (rewrite Hx; intros [= ->]; tauto). apply H9; [done|tauto]. }
    assert (Hrf : forall k, k ∈ fs -> exists y, sget k F = Some y). { intros k Hk. destruct (H11 k Hk) as (y & ? & _). eauto. }
    split.
    { intros e x Hx Hd. rewrite elem_of_app, elem_of_list_singleton in Hd. destruct (decide (x = f)) as [->|Hxf].
      - assert (exists y, ak' @ e = Some y) as [y Hy]. { apply zlook_lt. apply zlook_Some_lt in Hx. lia. }
        exists y. split; [done|]. destruct (Hnew e y Hx Hy) as [Hyb Hyc]. split; [right; lia|].
        destruct Hyc as [[-> Hi]|(-> & Hi & Hlt)].
        + split; [done|]. intros _. exists n. rewrite elem_of_app, elem_of_list_singleton. tauto.
        + split; [|done]. intros (k & Hk & Hky). exfalso. rewrite elem_of_app, elem_of_list_singleton in Hk. destruct Hk as [Hk| ->].
          * destruct (Hrf k Hk) as [y Hy']. pose proof (Hs _ _ Hy'). assert (y = z1) by congruence. subst y. apply H8 in Hy' as [? _]. lia.
          * assert (z = z1) by congruence. lia.
      - destruct (H10 e x Hx) as (y & Hy & Hc & Hi); [tauto|]. exists y. destruct (Hlow e x y Hx Hxf Hy) as (Hy' & Hyf & Hyb).
        split; [done|]. split; [destruct Hc; [by left|right; lia]|]. rewrite <- Hi, <- (inG_mono F F' fs y Hs Hrf). unfold inG. split.
        + intros (k & Hk & Hky). rewrite elem_of_app, elem_of_list_singleton in Hk. destruct Hk as [Hk| ->]; [eauto|]. exfalso.
          assert (y = z) by congruence. subst y. lia.
        + intros (k & Hk & Hky). exists k. rewrite elem_of_app. tauto. }
    assert (Hothb : forall x, oth x -> Z.abs x <= mx). { intros x (o & Ho1 & Ho2). by apply (Hmo o). }
    split.
    { split.
      { apply NoDup_app. split; [done|]. split; [|apply NoDup_singleton]. intros k Hk ->%elem_of_list_singleton. destruct (Hrf n Hk) as [y Hy].
        apply Hs in Hy as Hy'. assert (y = z) by congruence. subst y. apply H8 in Hy as [? _]. lia. }
      intros k Hk. rewrite elem_of_app, elem_of_list_singleton in Hk. destruct Hk as [Hk| ->].
      - destruct (H11 k Hk) as (y & Hy & ? & ? & Hd & e & He & Hye). exists y. split; [by apply Hs|]. do 2 (split; [done|]). split; [rewrite elem_of_app; tauto|].
        exists e. split; [done|]. destruct (zlook_lt a e (Hids e He)) as [x Hx]. destruct (decide (x = f)) as [->|Hxf]; [|by apply (Hlow e x y)].
        rewrite (Hfe e Hx) in Hye. injection Hye as <-. exfalso. destruct Hd; [done|lia].
      - exists z. split; [done|]. split; [lia|]. split; [intros Hz3; apply Hothb in Hz3; lia|]. split; [right; lia|].
        destruct Hfa as (e & He & Hx). exists e. split; [done|by apply Hz2]. }
    split.
    { intros y (e & He)%elem_of_zlook. assert (exists x, a @ e = Some x) as [x Hx]. { apply zlook_lt. apply zlook_Some_lt in He. lia. }
      destruct (decide (x = f)) as [->|Hxf].
      - destruct (Hnew e y Hx He) as [Hyb Hyc]. right. exists n, z. split; [done|]. destruct Hyc as [[-> _]|(-> & _ & ?)]; lia.
      - rewrite Hw3 in He by congruence. apply zlook_elem in He. destruct (H12 y He) as [?|(k & id & ? & ?)]; [by left|]. right. exists k, id. split; [by apply Hs|done]. }
    intros g. specialize (H13 g). specialize (HG g). destruct (sget g G0) as [l0|], (sget g G) as [l1|]; try done; destruct (sget g G') as [l1'|]; try done.
    destruct H13 as (K1 & K2 & K3 & K4). destruct HG as [HG1 HG2].
    assert (Hr1 : forall k, k ∈ l1 -> exists y, sget k F = Some y). { intros k Hk. destruct (K1 k Hk) as (y & ? & _). eauto. }
    (* the membership of a low id other than f, or of f if it is still needed *)
    assert (Hold : forall x, Z.abs x < M -> (x <> f \/ oth f) -> inG F' l1' x <-> inG F l1 x).
    { intros x Hx Hc. rewrite <- (inG_mono F F' l1 x Hs Hr1). unfold changed in HG2. destruct (nameOfId f F0) as [o|] eqn:Eo; [|by subst l1'].
      apply nameOfId_Some in Eo; [|done]. apply H7 in Eo as EF. apply Hs in EF as EF'. destruct HG2 as (C1 & C2 & C3 & C4 & C5). unfold inG. split; intros (k & Hk & Hkx).
      - exists k. split; [|done]. destruct (HG1 k Hk) as [?|[HkN _]]; [done|]. exfalso. apply HN in HkN. apply Hb in Hkx as [?|[_ ?]]; [congruence|lia].
      - exists k. split; [|done]. destruct (decide (k = o)) as [->|Hko].
        + assert (x = f) by congruence. subst x. destruct Hc as [?|Hof]; [done|]. destruct C3 as [C3|C3]; [by apply C3 in Hk|by apply C3].
        + apply C1; [done| |done]. intros HkN. apply HN in HkN. destruct (Hr1 k Hk). congruence. }
    split; [|split; [|split]].
    - intros k Hk. destruct (HG1 k Hk) as [Hk1|[HkN [y Hy]]].
      + destruct (K1 k Hk1) as (y & Hy & Hc). exists y. split; [by apply Hs|done].
      + exists y. split; [done|]. right. apply HN in HkN. apply Hb in Hy as [?|[_ ?]]; [congruence|lia].
    - intros e x y Hx Hy. destruct (decide (x = f)) as [->|Hxf].
      + rewrite <- (K2 e f f Hx (Hfe e Hx)). destruct (Hnew e y Hx Hy) as [Hyb Hyc]. unfold changed in HG2. destruct (nameOfId f F0) as [o|] eqn:Eo.
        * destruct Hreg as [HnN Hz1N]; [by exists o|]. apply nameOfId_Some in Eo; [|done]. apply H7 in Eo as EF. destruct HG2 as (C1 & C2 & C3 & C4 & C5).
          transitivity (o ∈ l1).
          -- split.
             ++ intros (k & Hk & Hky). destruct (HG1 k Hk) as [Hk1|[HkN _]]; [|by apply (C4 k HkN)]. exfalso.
                destruct (Hr1 k Hk1) as [y' Hy']. pose proof (Hs _ _ Hy'). assert (y' = y) by congruence. subst y'. apply H8 in Hy' as [? _]. lia.
             ++ intros Hol. destruct Hyc as [[-> Hi]|(-> & Hi & _)].
                ** exists n. split; [|done]. by apply C4.
                ** destruct Hz1N as (k & HkN & Hk); [by exists e|]. exists k. split; [|done]. by apply C4.
          -- split; [intros Hol; exists o; done|]. intros (k & Hk & Hkf). by rewrite (H6 o k f EF Hkf).
        * subst l1'. split.
          -- intros (k & Hk & Hky). exfalso. destruct (Hr1 k Hk) as [y' Hy']. pose proof (Hs _ _ Hy'). assert (y' = y) by congruence. subst y'. apply H8 in Hy' as [? _]. lia.
          -- intros (k & Hk & Hky). exfalso. apply H8 in Hky as [_ [Hk0|[(Hd & _)|?]]]; [|done|lia]. by apply (nameOfId_None _ _ HF0 Eo k).
      + assert (Hy2 : ak @ e = Some y). { rewrite <- Hy. symmetry. apply Hw3. congruence. }
        destruct (Hlow e x y Hx Hxf Hy2) as (_ & Hyf & Hyb). rewrite (Hold y) by tauto. by apply K2 with e.
    - intros x Hx. assert (Z.abs x < M). { apply Hothb in Hx. lia. } rewrite Hold; [by apply K3|done|]. destruct (decide (x = f)) as [->|?]; tauto.
    - intros Hnd%K4. unfold changed in HG2. destruct (nameOfId f F0) as [o|]; [by apply HG2|by subst].
  Qed.

  Local Lemma ids2_in (ids2 : list Z) f : (forall e, e ∈ ids2 <-> e ∈ ids /\ a @ e = Some f) -> forall ak : list Z, zlen ak = zlen a -> forall e, e ∈ ids2 -> 0 <= e < zlen ak.
  Proof using All. intros H ak Hl e He. rewrite Hl. apply H in He as [He _]. by apply Hids. Qed.
  Local Lemma step D s f : Inv D s -> (exists e, e ∈ ids /\ a @ e = Some f) -> f ∉ D -> wp (groupStep m sg ids a famIds others s f) (Inv (D ++ [f])) False.
  Proof using All.
    destruct s as [[[[W F] G] fs] M]. intros Hinv Hfe HfD. assert (Hfa : f ∈ a). { destruct Hfe as (e & _ & He). by apply zlook_elem in He. } unfold groupStep.
    destruct (prep f) as (ids2 & ids1 & ret0 & E2 & E1 & E0 & Hi2 & Hr0).
    destruct (findIdsEqual f (vec famIds)) as [pos| | |]; try done. cbn [bind] in *.
    destruct (mySelectByTupleId (vec ids) pos) as [sl| | |]; try done. cbn [bind] in *.
    rewrite E2. cbn [bind]. rewrite E1. cbn [bind]. rewrite E0. cbn [bind]. clear E2 E1 E0 pos sl ids1.
    pose proof Hinv as (ak & H1 & H2 & H3 & H4 & H5 & H6 & H7 & H8 & H9 & H10 & [H14 H11] & H12 & H13).
    assert (Hfm : Z.abs f <= mx) by (apply Hma; done).
    assert (Hfr : forall x, M <= Z.abs x -> forall k, sget k F <> Some x). { intros x Hx k Hk. apply H8 in Hk as [? _]. lia. }
    assert (Hreg : forall g l1, sget g G = Some l1 -> forall k, k ∈ l1 -> exists y, sget k F = Some y).
    { intros g l1 Hg k Hk. specialize (H13 g). rewrite Hg in H13. destruct (sget g G0); [|done]. destruct H13 as [K _]. destruct (K k Hk) as (y & ? & _). eauto. }
    assert (Hnoto : forall o g l1, nameOfId f F0 = Some o -> sget g G = Some l1 -> o ∈ l1 -> ~ oth f).
    { intros o g l1 Eo Hg Hk. apply nameOfId_Some in Eo; [|done]. specialize (H13 g). rewrite Hg in H13. destruct (sget g G0) as [l0|] eqn:Eg; [|done].
      destruct H13 as [K _]. destruct (K o Hk) as (y & Hy & Hc). apply H7 in Eo as Ey. assert (y = f) by congruence. subst y.
      destruct Hc as [Hc|?]; [|lia]. destruct (Hap g l0 o f Eg Hc Eo) as [_ ?]. by auto. }
    assert (HexT : forall o, nameOfId f F0 = Some o -> existsFamilyId f m = true /\ default "" (nameOfId f (fm_fams m)) = o).
    { intros o Eo. unfold existsFamilyId. fold F0. rewrite Eo. done. }
    assert (HexF : nameOfId f F0 = None -> existsFamilyId f m = false). { intros Eo. unfold existsFamilyId. fold F0. by rewrite Eo. }
    destruct ret0 as [|r rs] eqn:Er0.
    - assert (Hall : forall e, a @ e = Some f -> e ∈ ids). { intros e He. destruct (decide (e ∈ ids)) as [?|Hn]; [done|]. assert (Hin : e ∈ ([] : list Z)) by (apply Hr0; done). by apply elem_of_nil in Hin. }
      destruct (present_ok f) as (b & -> & Hb). cbn [bind].
      destruct (negb b && negb (f =? 0)) eqn:Ec.
      + destruct (findOrCreate_ok f F H4 H6) as (n & cr & F' & -> & P1 & P2 & P3 & P4 & P5 & _). cbn [bind wp].
        assert (~ oth f) by (destruct b; [done|intros Ho; apply Hb in Ho; done]). apply (keep_inv D W F G fs M f n F'); try done; [lia|].
        intros k x Hk. apply P5 in Hk as [?|(? & ? & _)]; tauto.
      + assert (Hz : M <= Z.abs (sg * M)) by (rewrite abs_sg; lia).
        destruct (findOrCreate_ok (sg * M) F H4 H6) as (n & cr & F' & -> & P1 & P2 & P3 & P4 & P5 & P6). cbn [bind wp].
        specialize (P6 (Hfr _ Hz)).
        destruct (setIds_ok (sg * M) ids2 ak (ids2_in ids2 f Hi2 ak H2)) as (ak' & S1 & S2 & S3 & S4).
        assert (HGn : forall g l1, sget g G = Some l1 -> n ∉ l1). { intros g l1 Hg Hn. destruct (Hreg g l1 Hg n Hn). congruence. }
        apply (new_inv D W F G fs M f _ F' _ n (sg * M) 0 (M + 1) [n] ak'); try done.
        * intros k x Hk. apply P5 in Hk as [?|(-> & -> & ?)]; [by left|right]. split; [done|]. rewrite abs_sg. lia.
        * lia.
        * rewrite abs_sg. lia.
        * intros k ->%elem_of_list_singleton. done.
        * intros _. split; [by apply elem_of_list_singleton|]. intros (e & He & Hn). by apply Hall in He.
        * intros ak1 E _. rewrite H1 in E. injection E as <-. split; [cbn [foldM]; by rewrite S1|]. split; [lia|]. intros e He. apply S4. intros [_ ?]%Hi2. done.
        * intros e He Hi. apply S3. by apply Hi2.
        * intros e He Hn. by apply Hall in He.
        * destruct (existsFamilyId f m); [by apply ordered_onGroups|done].
        * intros g. destruct (nameOfId f F0) as [o|] eqn:Eo.
          -- destruct (HexT o eq_refl) as [-> ->]. unfold changeAllGroups. rewrite sget_onGroups. destruct (sget g G) as [l1|] eqn:Eg; cbn [fmap option_fmap option_map]; [|done].
             pose proof (HGn g l1 Eg) as Hnl. apply nameOfId_Some in Eo as Eo'; [|done]. apply H7 in Eo'. assert (Hno : n <> o) by congruence.
             unfold inS, changed. rewrite Eo. destruct (bool_decide_reflect (o ∈ l1)) as [Hol|Hol].
             ++ split.
                { intros k. rewrite elem_of_app, !elem_of_cons, elem_of_nil. intros [?%elem_del1|[->|[->|[]]]]; [by left|by left|right; split; [by left|eauto]]. }
                split; [|split; [|split; [|split]]].
                ** intros k Hko HkN. rewrite elem_of_list_singleton in HkN. rewrite elem_of_app, !elem_of_cons, elem_of_nil. split; [intros [?%elem_del1|[?|[?|[]]]]; done|].
                   intros ?. left. by apply del1_elem.
                ** done.
                ** right. intros _. rewrite elem_of_app, !elem_of_cons. tauto.
                ** intros k ->%elem_of_list_singleton. rewrite elem_of_app, !elem_of_cons. tauto.
                ** intros Hnd. apply NoDup_app. split; [by apply NoDup_del1|]. split.
                   { intros k Hk [->|[->|?%elem_of_nil]%elem_of_cons]%elem_of_cons; [by apply (del1_nodup o l1)|by apply elem_del1 in Hk|done]. }
                   apply NoDup_cons. split; [rewrite elem_of_list_singleton; congruence|apply NoDup_singleton].
             ++ split; [by left|]. split; [done|]. split; [done|]. split; [by left|]. split; [|done]. intros k ->%elem_of_list_singleton. tauto.
          -- rewrite (HexF eq_refl). destruct (sget g G) as [l1|] eqn:Eg; [|done]. unfold changed. rewrite Eo. split; [by left|done].
    - rewrite <- Er0 in *. assert (Hz : M <= Z.abs (sg * (M + 1))) by (rewrite abs_sg; lia).
      destruct (findOrCreate_ok (sg * (M + 1)) F H4 H6) as (n2 & cr & F1 & -> & P1 & P2 & P3 & P4 & P5 & P6). cbn [bind].
      specialize (P6 (Hfr _ Hz)).
      assert (HM' : sg * M <> sg * (M + 1)) by (destruct Hsg; lia).
      destruct (setIds_ok (sg * M) ret0 ak) as (ak1 & S1 & S2 & S3 & S4). { intros e [_ He%zlook_Some_lt]%Hr0. lia. }
      destruct (setIds_ok (sg * (M + 1)) ids2 ak1) as (ak2 & T1 & T2 & T3 & T4). { apply (ids2_in ids2 f Hi2). lia. }
      assert (Hfold : foldM (fun a '(v, w) => setIds v w a) [(sg * M, ret0); (sg * (M + 1), ids2)] ak = Ok ak2).
      { cbn [foldM]. rewrite S1. cbn [bind]. rewrite T1. done. }
      assert (Hsame : forall e, a @ e <> Some f -> ak2 @ e = ak @ e).
      { intros e He. rewrite T4 by (intros [_ ?]%Hi2; done). apply S4. intros [_ ?]%Hr0. done. }
      assert (Hz2 : forall e, a @ e = Some f -> e ∈ ids -> ak2 @ e = Some (sg * (M + 1))). { intros e He Hi. apply T3. by apply Hi2. }
      assert (Hz1 : forall e, a @ e = Some f -> e ∉ ids -> ak2 @ e = Some (sg * M) /\ M <= Z.abs (sg * M) < Z.abs (sg * (M + 1))).
      { intros e He Hi. split; [|rewrite !abs_sg; lia]. rewrite T4 by (intros [? _]%Hi2; done). apply S3. by apply Hr0. }
      destruct (nameOfId f F0) as [o|] eqn:Eo.
      + destruct (HexT o eq_refl) as [-> ->]. apply nameOfId_Some in Eo as Eo'; [|done]. apply H7 in Eo'.
        destruct (findOrCreate_ok (sg * M) F1 P1 P2) as (n1 & cr1 & F2 & -> & Q1 & Q2 & Q3 & Q4 & Q5 & Q6). cbn [bind wp].
        assert (Hn1 : sget n1 F1 = None).
        { apply Q6. intros k Hk. apply P5 in Hk as [Hk|(_ & ? & _)]; [|done]. apply (Hfr (sg * M)) in Hk; [done|]. rewrite abs_sg. lia. }
        assert (Hn1F : sget n1 F = None). { destruct (sget n1 F) eqn:E; [|done]. apply P4 in E. congruence. }
        apply (new_inv D W F G fs M f _ F2 _ n2 (sg * (M + 1)) (sg * M) (M + 2) [n1; n2] ak2); try done.
        * intros k x Hk. apply Q4. by apply P4.
        * intros k x Hk. apply Q5 in Hk as [Hk|(-> & -> & _)]; [|right; split; [done|rewrite abs_sg; lia]].
          apply P5 in Hk as [?|(-> & -> & ?)]; [by left|right]. split; [done|]. rewrite abs_sg. lia.
        * lia.
        * by apply Q4.
        * rewrite abs_sg. lia.
        * intros k [->|[->|?%elem_of_nil]%elem_of_cons]%elem_of_cons; done.
        * intros _. split; [rewrite !elem_of_cons; tauto|]. intros _. exists n1. split; [by left|done].
        * intros ak' E _. rewrite H1 in E. injection E as <-. split; [done|]. split; [lia|done].
        * by apply ordered_onGroups.
        * intros g. unfold changeAllGroups. rewrite sget_onGroups. destruct (sget g G) as [l1|] eqn:Eg; cbn [fmap option_fmap option_map]; [|done].
          assert (Hnl : forall k, k ∈ [n1; n2] -> k ∉ l1 /\ k <> o). { intros k Hk. assert (sget k F = None) by (rewrite !elem_of_cons in Hk; destruct Hk as [->|[->|?%elem_of_nil]]; done).
            split; [|congruence]. intros Hkl. destruct (Hreg g l1 Eg k Hkl). congruence. }
          unfold inS, changed. rewrite Eo. destruct (bool_decide_reflect (o ∈ l1)) as [Hol|Hol].
          -- split.
             { intros k. rewrite elem_of_app. intros [?%elem_del1|Hk]; [by left|right]. split; [done|]. rewrite !elem_of_cons in Hk. destruct Hk as [->|[->|?%elem_of_nil]]; [by eauto|eauto|done]. }
             split; [|split; [|split; [|split]]].
             ++ intros k Hko HkN. rewrite elem_of_app. split; [intros [?%elem_del1|?]; done|]. intros ?. left. by apply del1_elem.
             ++ done.
             ++ left. intros _. by apply (Hnoto o g l1).
             ++ intros k HkN. rewrite elem_of_app. tauto.
             ++ intros Hnd. apply NoDup_app. split; [by apply NoDup_del1|]. split.
                { intros k Hk HkN. apply elem_del1 in Hk. by apply Hnl in HkN as [? _]. }
                apply NoDup_cons. split; [|apply NoDup_singleton]. rewrite elem_of_list_singleton. intros ->. congruence.
          -- split; [by left|]. split; [done|]. split; [done|]. split; [by left|]. split; [|done]. intros k HkN. split; [|done]. intros Hk. by apply Hnl in HkN as [? _].
      + rewrite (HexF eq_refl). cbn [wp].
        apply (new_inv D W F G fs M f _ F1 _ n2 (sg * (M + 1)) (sg * M) (M + 2) [] ak2); try done.
        * intros k x Hk. apply P5 in Hk as [?|(-> & -> & ?)]; [by left|right]. split; [done|]. rewrite abs_sg. lia.
        * lia.
        * rewrite abs_sg. lia.
        * intros k Hk. by apply elem_of_nil in Hk.
        * intros [o Ho]. congruence.
        * intros ak' E _. rewrite H1 in E. injection E as <-. split; [done|]. split; [lia|done].
        * intros g. destruct (sget g G) as [l1|] eqn:Eg; [|done]. unfold changed. rewrite Eo. split; [by left|done].
  Qed.
  Lemma loop_ok diff : NoDup diff -> (forall f, f ∈ diff -> exists e, e ∈ ids /\ a @ e = Some f) ->
    exists s, foldM (groupStep m sg ids a famIds others) diff ([], F0, G0, [], mx + 1) = Ok s /\ Inv diff s.
  Proof using All.
    intros Hd Hin. apply wp_ok. apply (wp_foldM (groupStep m sg ids a famIds others) Inv); [| |done].
    - exists a. cbn [foldM]. split; [done|]. split; [done|]. split; [lia|]. do 3 (split; [done|]). split; [done|]. split.
      { intros n x Hn. split; [apply HmF in Hn; lia|by left]. }
      split; [done|]. split; [by intros e x _ ?%elem_of_nil|]. split; [split; [constructor|]; by intros n ?%elem_of_nil|]. split; [done|].
      intros g. destruct (sget g G0) as [l0|] eqn:Eg; [|done]. split; [|split; [|done]].
      + intros n Hn. destruct (Hcl g l0 n Eg Hn) as [x Hx]. exists x. split; [done|by left].
      + intros e x y Hx Hy. by replace y with x by congruence.
    - intros pre x post s E Hinv. apply step; [done|apply Hin; rewrite E; apply elem_of_app; right; left|].
      rewrite E in Hd. apply NoDup_app in Hd as (_ & Hd & _). intros Hx. apply (Hd x Hx). left.
  Qed.
End Loop.
