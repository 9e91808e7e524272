(** Where the values of the cells of a field are. *)
From Coq Require Import QArith Qabs ZifyBool ZifyNat.
From Verif Require Import Base DataArray ArrLib IndexSpec IndexModel FillLib RenumSpec CellTable SkyModel SkyProofs UmModel UmSpec UmProofs UmProofs2 UcModel GlModel GlSpec GlProofs FdModel FdSpec.
Local Open Scope Z_scope.

(** A sum in a loop. *)
Lemma forZ_sum (body : Z -> Z -> res Z) ns s : (forall i v s, ns @ i = Some v -> body i s = Ok (s + v)) -> forZ 0 (zlen ns) body s = Ok (s + zsum ns).
Proof.
  intros H. assert (W : wp (forZ 0 (zlen ns) body s) (fun r => r = s + zsum ns) False).
  { apply (wp_forZ (fun i r => r = s + zsum (take (Z.to_nat i) ns))).
    - apply zlen_nonneg.
    - change (s = s + 0). lia.
    - intros i r Hi ->. destruct (zlook_lt ns i ltac:(lia)) as [v Hv]. rewrite (H i v _ Hv). cbn [wp]. rewrite (zsum_take_succ ns i v Hv). lia.
    - intros r ->. rewrite firstn_all2; [done|unfold zlen; lia]. }
  apply wp_ok in W as (r & -> & ->). done.
Qed.
(** A loop with a failing step. *)
Lemma forZ_throw {S} (body : Z -> S -> res S) n i0 s : 0 <= i0 < n -> (forall i s, 0 <= i <= i0 -> (exists r, body i s = Ok r) \/ body i s = Throw) -> (forall s, body i0 s = Throw) -> forZ 0 n body s = Throw.
Proof.
  intros Hi H H0. assert (W : wp (forZ 0 n body s) (fun _ => False) True).
  { apply (wp_forZ (fun i _ => i <= i0)); [lia|lia| |intros; lia]. intros i s' Hi' Hle. destruct (decide (i = i0)) as [->|]; [by rewrite H0|].
    destruct (H i s') as [[r ->]| ->]; [lia|cbn [wp]; lia|done]. }
  destruct (forZ 0 n body s); done.
Qed.
(** Each step has a size, or some step fails. *)
Lemma all_or_one (size : Z -> res Z) n : 0 <= n -> (forall i, 0 <= i < n -> (exists v, size i = Ok v) \/ size i = Throw) ->
  (exists ns, zlen ns = n /\ forall i v, ns @ i = Some v -> size i = Ok v) \/ (exists i, 0 <= i < n /\ size i = Throw).
Proof.
  intros Hn. pattern n. apply natlike_ind; [| |done]; clear n Hn.
  - intros _. left. exists []. split; [done|]. intros i v Hv. by rewrite zlook_nil in Hv.
  - intros n Hn IH H. destruct IH as [(ns & Hl & Hns)|(i & Hi & E)]; [intros i Hi; apply H; lia| |right; exists i; split; [lia|done]].
    destruct (H n ltac:(lia)) as [[v Hv]|E]; [|right; exists n; split; [lia|done]]. left. exists (ns ++ [v]). split; [rewrite zlen_app; change (zlen [v]) with 1; lia|].
    intros i x Hx. apply zlook_Some_lt in Hx as Hb. rewrite zlen_app in Hb. change (zlen [v]) with 1 in Hb. destruct (decide (i < zlen ns)).
    + rewrite zlook_app_l in Hx by lia. by apply Hns.
    + assert (i = zlen ns) as -> by lia. rewrite zlook_app_r, Z.sub_diag in Hx by lia. injection Hx as <-. rewrite Hl. done.
Qed.

(** The size of a cell for the Gauss points. *)
Definition gsize (g : gauss) (dpc : list Z) (i : Z) : res Z :=
  match dpc @ i with Some w => match gd_loc g @ w with Some l => Ok (zlen (gl_w l)) | None => Throw end | None => Throw end.
Lemma gsize_case g dpc i : (exists v, gsize g dpc i = Ok v) \/ gsize g dpc i = Throw.
Proof. unfold gsize. destruct (dpc @ i) as [w|]; [|by right]. destruct (gd_loc g @ w) as [l|]; [left; by eexists|by right]. Qed.
Lemma ne_case m cells i : stores m cells -> 0 <= i -> (exists v, nodesOfType m i = Ok v) \/ nodesOfType m i = Throw.
Proof.
  intros Hs Hi. unfold nodesOfType. rewrite (typeOf_ok m cells i Hs Hi). destruct (cells @ i) as [c|]; [|by right]. cbn [bind]. destruct (model_case c.1) as [[k ->]| ->]; [|by right].
  cbn [bind]. destruct (cm_dyn k); cbn; [by right|left; by eexists].
Qed.
Lemma sizes_len d cells ns : sizes d cells ns -> zlen ns = zlen cells.
Proof.
  destruct d as [| |g|]; cbn [sizes]; intros H; [|done| |].
  - rewrite H, zlen_fmap. done.
  - destruct H as (dpc & _ & <- & H). unfold zlen. by rewrite (Forall2_length _ _ _ H).
  - unfold zlen. by rewrite (Forall2_length _ _ _ H).
Qed.
Lemma F2_pair {X Y} (P : X -> Y -> Prop) l k : Forall2 P l k <-> zlen l = zlen k /\ forall i x y, l @ i = Some x -> k @ i = Some y -> P x y.
Proof.
  split.
  - intros H. split; [unfold zlen; by rewrite (Forall2_length _ _ _ H)|]. intros i x y Hx Hy. apply zlook_Some_lt in Hx as ?. rewrite zlook_to_nat in Hx by lia. rewrite zlook_to_nat in Hy by lia. by eapply Forall2_lookup_lr.
  - intros [Hl H]. apply Forall2_same_length_lookup_2; [unfold zlen in Hl; lia|]. intros i x y Hx Hy. rewrite <- zlook_nat in Hx. rewrite <- zlook_nat in Hy. by eapply H.
Qed.
Lemma sizes_gauss g cells dpc ns : gd_dpc g = Some dpc -> zlen dpc = zlen cells -> (zlen ns = zlen dpc /\ forall i v, ns @ i = Some v -> gsize g dpc i = Ok v) <-> sizes (GaussPt g) cells ns.
Proof.
  intros E Hl. cbn [sizes]. split.
  - intros [Hn H]. exists dpc. split; [done|]. split; [done|]. apply F2_pair. split; [done|]. intros i w v Hw Hv. specialize (H i v Hv). unfold gsize in H. rewrite Hw in H. destruct (gd_loc g @ w) as [l|] eqn:El; [|done]. injection H as <-. exists l. done.
  - intros (dpc' & E' & _ & H). rewrite E in E'. injection E' as <-. apply F2_pair in H as [H1 H2]. split; [done|]. intros i v Hv. apply zlook_Some_lt in Hv as ?. destruct (zlook_lt dpc i ltac:(lia)) as [w Hw]. destruct (H2 i w v Hw Hv) as (l & Hl' & ->).
    unfold gsize. rewrite Hw, Hl'. done.
Qed.
Lemma sizes_ne m cells ns : stores m cells -> (zlen ns = zlen cells /\ forall i v, ns @ i = Some v -> nodesOfType m i = Ok v) <-> sizes GaussNE cells ns.
Proof.
  intros Hs. cbn [sizes]. rewrite F2_pair. split.
  - intros [Hn H]. split; [done|]. intros i c v Hc Hv. specialize (H i v Hv). apply zlook_Some_lt in Hc as ?. unfold nodesOfType in H. rewrite (typeOf_ok m cells i Hs), Hc in H by lia. cbn [bind] in H. destruct (model_case c.1) as [[k Ek]|E]; [|by rewrite E in H].
    rewrite Ek in H. cbn [bind] in H. destruct (cm_dyn k) eqn:Ed; cbn in H; [done|]. injection H as <-. by exists k.
  - intros [Hn H]. split; [done|]. intros i v Hv. apply zlook_Some_lt in Hv as ?. destruct (zlook_lt cells i ltac:(lia)) as [c Hc]. destruct (H i c v Hc Hv) as (k & Ek & Ed & ->). unfold nodesOfType. rewrite (typeOf_ok m cells i Hs), Hc by lia. cbn [bind]. rewrite Ek. cbn [bind]. rewrite Ed. done.
Qed.
Lemma gtest g dpc i v : gsize g dpc i = Ok v -> exists w l, dpc @ i = Some w /\ gd_loc g @ w = Some l /\ 0 <= w < zlen (gd_loc g) /\ v = zlen (gl_w l).
Proof. unfold gsize. destruct (dpc @ i) as [w|]; [|done]. destruct (gd_loc g @ w) as [l|] eqn:E; [|done]. intros [= <-]. apply zlook_Some_lt in E as ?. by exists w, l. Qed.
(** The numbers of tuples. *)
Lemma gaussTuples_ok g dpc ns : gd_dpc g = Some dpc -> zlen ns = zlen dpc -> (forall i v, ns @ i = Some v -> gsize g dpc i = Ok v) -> gaussTuples g = Ok (zsum ns).
Proof.
  intros E Hl H. unfold gaussTuples. rewrite E. match goal with |- foldM ?f _ _ = _ => set (F := f) end.
  assert (W : wp (foldM F dpc 0) (fun r => r = zsum ns) False).
  { apply (wp_foldM F (fun pre r => r = zsum (take (Z.to_nat (zlen pre)) ns))).
    - done.
    - intros pre w post r Ed ->. assert (Hw : dpc @ zlen pre = Some w) by (rewrite Ed, zlook_app_r, Z.sub_diag by lia; done). apply zlook_Some_lt in Hw as ?. destruct (zlook_lt ns (zlen pre) ltac:(lia)) as [v Hv].
      destruct (gtest _ _ _ _ (H _ _ Hv)) as (w' & l & Hw' & Hl' & Hb & ->). rewrite Hw in Hw'. injection Hw' as <-. unfold F. replace ((0 <=? w) && (w <? zlen (gd_loc g))) with true by lia. rewrite (rd_ok _ _ _ Hl'). cbn [bind wp].
      rewrite zlen_app. change (zlen [w]) with 1. rewrite (zsum_take_succ _ _ _ Hv). done.
    - intros r ->. rewrite <- Hl, firstn_all2; [done|unfold zlen; lia]. }
  apply wp_ok in W as (r & -> & ->). done.
Qed.
Lemma gaussTuples_not g dpc i : gd_dpc g = Some dpc -> 0 <= i < zlen dpc -> gsize g dpc i = Throw -> gaussTuples g = Throw.
Proof.
  intros E Hi H. unfold gaussTuples. rewrite E. match goal with |- foldM ?f _ _ = _ => set (F := f) end.
  assert (W : wp (foldM F dpc 0) (fun _ => False) True).
  { apply (wp_foldM F (fun pre r => zlen pre <= i)).
    - change (0 <= i). lia.
    - intros pre w post r Ed Hp. assert (Hw : dpc @ zlen pre = Some w) by (rewrite Ed, zlook_app_r, Z.sub_diag by lia; done). unfold F. destruct ((0 <=? w) && (w <? zlen (gd_loc g))) eqn:Eb; [|done].
      destruct (zlook_lt (gd_loc g) w ltac:(lia)) as [l Hl]. rewrite (rd_ok _ _ _ Hl). cbn [bind wp]. rewrite zlen_app. change (zlen [w]) with 1. destruct (decide (zlen pre = i)) as [<-|]; [|lia]. unfold gsize in H. rewrite Hw, Hl in H. done.
    - intros r Hp. lia. }
  destruct (foldM F dpc 0); done.
Qed.
Lemma neTuples_ok m cells ns : stores m cells -> zlen ns = zlen cells -> (forall i v, ns @ i = Some v -> nodesOfType m i = Ok v) -> neTuples m = Ok (zsum ns).
Proof.
  intros Hs Hl H. unfold neTuples. rewrite (numCells_ok m cells Hs). cbn [bind]. rewrite <- Hl. rewrite (forZ_sum _ ns 0); [done|]. intros i v s Hv. rewrite (H i v Hv). done.
Qed.
Lemma neTuples_not m cells i : stores m cells -> 0 <= i < zlen cells -> nodesOfType m i = Throw -> neTuples m = Throw.
Proof.
  intros Hs Hi H. unfold neTuples. rewrite (numCells_ok m cells Hs). cbn [bind]. apply (forZ_throw _ _ i); [done| |intros s; by rewrite H].
  intros k s Hk. destruct (ne_case m cells k Hs ltac:(lia)) as [[v ->]| ->]; [left; by eexists|by right].
Qed.
Lemma tuples_ok d m cells ns : stores m cells -> sizes d cells ns -> getNumberOfTuples d m = Ok (zsum ns).
Proof.
  intros Hs H. destruct d as [| |g|]; cbn [getNumberOfTuples].
  - cbn [sizes] in H. rewrite H, (numCells_ok m cells Hs). f_equal. clear. induction cells as [|c l IH]; [done|]. rewrite fmap_cons. change (zsum (1 :: ((fun _ => 1) <$> l))) with (1 + zsum ((fun _ => 1) <$> l)). rewrite <- IH, zlen_cons. lia.
  - done.
  - pose proof H as (dpc & E & Hl & _). destruct (proj2 (sizes_gauss g cells dpc ns E Hl) H) as [H1 H2]. by eapply gaussTuples_ok.
  - apply (sizes_ne m cells ns Hs) in H as [H1 H2]. by eapply neTuples_ok.
Qed.
Lemma sizes_or d m cells : stores m cells -> d <> P1 -> (exists ns, sizes d cells ns) \/ getNumberOfTuples d m = Throw /\ (forall ns, ~ sizes d cells ns) \/ (exists g dpc, d = GaussPt g /\ gd_dpc g = Some dpc /\ zlen dpc <> zlen cells).
Proof.
  intros Hs Hd. pose proof (zlen_nonneg cells). destruct d as [| |g|]; [left; by eexists|done| |].
  - destruct (gd_dpc g) as [dpc|] eqn:E; [|right; left; cbn; unfold gaussTuples; rewrite E; split; [done|]; intros ns (x & Hx & _); congruence].
    destruct (decide (zlen dpc = zlen cells)) as [Hl|]; [|right; right; by exists g, dpc].
    destruct (all_or_one (gsize g dpc) (zlen cells)) as [(ns & Hn & H1)|(i & Hi & H1)]; [lia|intros; apply gsize_case| |].
    + left. exists ns. apply (sizes_gauss g cells dpc ns E Hl). split; [lia|done].
    + right. left. cbn. split; [apply (gaussTuples_not g dpc i E ltac:(lia) H1)|]. intros ns Hns. apply (sizes_gauss g cells dpc ns E Hl) in Hns as [Hn Hns]. destruct (zlook_lt ns i ltac:(lia)) as [v Hv]. specialize (Hns i v Hv). congruence.
  - destruct (all_or_one (nodesOfType m) (zlen cells)) as [(ns & Hn & H1)|(i & Hi & H1)]; [lia|intros; eapply ne_case; [done|lia]| |].
    + left. exists ns. by apply (sizes_ne m cells ns Hs).
    + right. left. cbn [getNumberOfTuples]. split; [by apply (neTuples_not m cells i)|]. intros ns Hns. apply (sizes_ne m cells ns Hs) in Hns as [Hn Hns]. destruct (zlook_lt ns i ltac:(lia)) as [v Hv]. specialize (Hns i v Hv). congruence.
Qed.
Lemma sizes_fun d m cells ns ns' : stores m cells -> sizes d cells ns -> sizes d cells ns' -> zsum ns = zsum ns'.
Proof. intros Hs H1 H2. pose proof (tuples_ok d m cells ns Hs H1) as E1. rewrite (tuples_ok d m cells ns' Hs H2) in E1. congruence. Qed.
