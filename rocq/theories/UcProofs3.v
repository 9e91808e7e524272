From Coq Require Import QArith ZifyBool ZifyNat.
From Verif Require Import CellModel CellProofs4 Base DataArray ArrLib FillLib StdModel StdProofs SetsProofs IndexSpec IndexProofs3 IndexProofs4 CellTable UmModel UmSpec UmProofs UmProofs2 UmProofs8 UcModel UcSpec UcProofs UcProofs2.
Local Open Scope Z_scope.

Lemma bring_ok v i : i ∈ v -> exists v', bringFirst v i = Ok (i :: v') /\ i :: v' ≡ₚ v.
Proof.
  intros Hi. destruct v as [|x r]; [by apply elem_of_nil in Hi|]. unfold bringFirst. change (rd (x :: r) 0) with (Ok x). cbn [bind].
  destruct (Z.eqb_spec x i) as [->|Hx]; cbn [negb]; [by exists r|].
  destruct (find_split (x :: r) (fun w => w =? i)) as (A & y & B & E & Hy & HA & ->); [exists i; split; [done|lia]|]. assert (y = i) as -> by lia.
  destruct A as [|x' A]; [injection E as -> _; done|]. injection E as <- ->. rewrite zlen_cons. pose proof (zlen_nonneg A). pose proof (zlen_nonneg B).
  exists (A ++ x :: B). rewrite (rd_ok _ _ i); [|rewrite zlook_cons; replace (1 + zlen A =? 0) with false by lia; replace (1 + zlen A - 1) with (zlen A) by lia; rewrite zlook_app_r by lia; by rewrite Z.sub_diag]. cbn [bind].
  unfold wr at 1. rewrite zlen_cons, zlen_app, zlen_cons. replace (_ && _) with true by lia. cbn [bind]. change (zset (x :: A ++ i :: B) 0 i) with (i :: A ++ i :: B). unfold wr. rewrite zlen_cons, zlen_app, zlen_cons. replace (_ && _) with true by lia. split.
  - f_equal. unfold zset. replace (Z.to_nat (1 + zlen A)) with (Datatypes.S (length A)) by (unfold zlen; lia). change (<[Datatypes.S (length A) := x]> (i :: A ++ i :: B)) with (i :: <[length A := x]> (A ++ i :: B)). rewrite insert_app_r_alt by lia. rewrite Nat.sub_diag. done.
  - rewrite <- !Permutation_middle. apply Permutation_swap.
Qed.
Lemma marks_ok (g : list Z) (F : list bool) : (forall x, x ∈ g -> 0 <= x < zlen F) ->
  exists F', foldM (fun s c => wr s c true) g F = Ok F' /\ zlen F' = zlen F /\ forall x b, F @ x = Some b -> F' @ x = Some (b || bool_decide (x ∈ g)).
Proof.
  revert F. induction g as [|y g IH]; intros F H; cbn [foldM].
  - exists F. split; [done|]. split; [done|]. intros x b Hx. rewrite Hx. destruct b; done.
  - unfold wr at 1. replace ((0 <=? y) && (y <? zlen F)) with true by (specialize (H y ltac:(left)); lia). cbn [bind].
    destruct (IH (zset F y true)) as (F' & E & Hl & HF); [intros x Hx; rewrite zlen_zset; apply H; by right|]. exists F'. split; [done|]. split; [by rewrite Hl, zlen_zset|].
    intros x b Hx. pose proof (zlook_Some_lt _ _ _ Hx). specialize (H y ltac:(left)). destruct (decide (x = y)) as [->|Hn].
    + rewrite (HF y true) by (rewrite zlook_zset by lia; by rewrite Z.eqb_refl). rewrite (bool_decide_eq_true_2 (y ∈ y :: g)) by left. rewrite orb_true_r. done.
    + rewrite (HF x b) by (rewrite zlook_zset by lia; replace (x =? y) with false by lia; done). f_equal. f_equal. apply bool_decide_ext. rewrite elem_of_cons. tauto.
Qed.
Lemma elem_concat' (gs : list (list Z)) x : x ∈ concat gs <-> exists g, g ∈ gs /\ x ∈ g.
Proof. rewrite elem_of_list_In, in_concat. split; intros (p & H1 & H2); exists p; rewrite !elem_of_list_In in *; done. Qed.
Lemma SLe_filter (f : Z -> bool) l : SLe l -> SLe (List.filter f l).
Proof.
  induction 1 as [|x l Hs IH Hf]; [constructor|]. cbn. destruct (f x); [|done]. constructor; [done|]. rewrite Forall_forall in *. intros y Hy. apply elem_of_list_In, filter_In in Hy as [Hy _]. apply Hf. by apply elem_of_list_In.
Qed.
Lemma cnt_filter (f : Z -> bool) l x : (cnt (List.filter f l) x <= cnt l x)%nat.
Proof. induction l as [|y l IH]; [done|]. cbn [List.filter count_occ]. destruct (f y); cbn [count_occ]; destruct (Z.eq_dec y x); lia. Qed.
Lemma cnt_NoDup l : (forall x : Z, (cnt l x <= 1)%nat) -> NoDup l.
Proof. intros H. apply NoDup_ListNoDup. apply (NoDup_count_occ Z.eq_dec). done. Qed.

Section Common.
Context (cells : list cell) (conn connI rev revI : list Z) (nb p start : Z).
Hypothesis Hsky : skyline (pk <$> cells) conn connI.
Hypothesis Hrev : skyline (cells_of_node 0 cells <$> seqZ 0 nb) rev revI.
Hypothesis Hused : forall v, used cells v -> v < nb.
Hypothesis Hw : with_nodes cells.
Hypothesis Hp : policy_for p cells.
Hypothesis Hst : 0 <= start.

Lemma in_pool i (c : cell) rest result : cells @ i = Some c -> (forall j, j ∈ rest -> 0 <= j < zlen cells) ->
  exists f : Z -> bool, (forall j (d : cell), cells @ j = Some d -> f j = true <-> alike p c d) /\
    AreCellsEqualInPool (i :: rest) p conn connI result = Ok (existsb f rest, result ++ (if existsb f rest then i :: List.filter f rest else [])).
Proof.
  intros Hc Hv. set (f := fun j => match AreCellsEqual conn connI i j p with Ok s => negb (s =? 0) | _ => false end).
  assert (Hf : forall j (d : cell), cells @ j = Some d -> AreCellsEqual conn connI i j p = Ok (if f j then 1 else 0) /\ (f j = true <-> alike p c d)).
  { intros j d Hd. destruct (equal_ok cells conn connI i j c d p Hsky Hp Hw Hc Hd) as (b & E & Hb). unfold f. rewrite E. destruct b; done. }
  exists f. split; [intros j d Hd; by apply Hf|]. cbn [AreCellsEqualInPool].
  assert (Hg : forall l r0 ret, (forall j, j ∈ l -> 0 <= j < zlen cells) -> foldM (fun '(ret, result) c =>
      let* status := AreCellsEqual conn connI i c p in
      if negb (status =? 0) then
        let result := if (ret : bool) then result else result ++ [i] in
        Ok (true, result ++ [if status =? 1 then c else if status =? 2 then c + 1 else - (c + 1)])
      else Ok (ret, result)) l (ret, r0) = Ok (ret || existsb f l, r0 ++ (if existsb f l then (if ret then [] else [i]) ++ List.filter f l else []))).
  { induction l as [|j l IH]; intros r0 ret Hl; cbn [foldM existsb List.filter]; [by rewrite orb_false_r, app_nil_r|].
    destruct (zlook_lt cells j) as [d Hd]; [apply Hl; left|]. destruct (Hf j d Hd) as [-> _]. cbn [bind].
    destruct (f j); cbn [Z.eqb negb]; cbn [bind].
    - rewrite IH by (intros; apply Hl; by right). f_equal. f_equal; [by destruct ret|]. cbn [orb]. change (1 =? 1) with true. cbn iota.
      destruct ret; destruct (existsb f l) eqn:El; rewrite <- ?app_assoc; cbn [app]; try done.
      + assert (List.filter f l = []) as -> by (clear -El; induction l as [|x l IH]; [done|]; cbn in *; apply orb_false_iff in El as [-> El]; auto). done.
      + assert (List.filter f l = []) as -> by (clear -El; induction l as [|x l IH]; [done|]; cbn in *; apply orb_false_iff in El as [-> El]; auto). done.
    - apply IH. intros; apply Hl; by right. }
  rewrite Hg by done. cbn [orb]. done.
Qed.

Definition inv (i : Z) (gs : list (list Z)) : Prop :=
  (forall g, g ∈ gs -> SLe g /\ 2 <= zlen g /\ (simple cells -> NoDup g) /\
     exists l c, start <= l < i /\ cells @ l = Some c /\ forall j, j ∈ g <-> exists d, cells @ j = Some d /\ alike p c d) /\
  (forall j c j' d, start <= j < i -> cells @ j = Some c -> cells @ j' = Some d -> j <> j' -> alike p c d -> exists g, g ∈ gs /\ j ∈ g) /\
  (forall a b g h x, gs @ a = Some g -> gs @ b = Some h -> x ∈ g -> x ∈ h -> a = b).
Definition st (gs : list (list Z)) (F : list bool) : Prop := zlen F = zlen cells /\ forall x, 0 <= x < zlen cells -> F @ x = Some (bool_decide (x ∈ concat gs)).

(* the first cells of the groups come in the order of the groups *)
Definition heads (gs : list (list Z)) : Prop := forall a b g h x y, a < b -> gs @ a = Some g -> gs @ b = Some h -> g @ 0 = Some x -> h @ 0 = Some y -> x < y.

Lemma alg_ok : exists gs, FindCommonCellsAlgPrivate false p start conn connI rev revI = Ok (concat gs, psums (zlen <$> gs)) /\ inv (Z.max start (zlen cells)) gs /\ (start = 0 -> heads gs).
Proof.
  unfold FindCommonCellsAlgPrivate.
  assert (Hn : zlen connI - 1 = zlen cells). { destruct (stored_starts cells conn connI Hsky) as (_ & _ & ->). lia. } rewrite Hn.
  match goal with |- context [forZ start (zlen cells) ?B ?S0] => set (body := B); set (s0 := S0) end.
  assert (Hinit : exists gs F, s0 = (concat gs, psums (zlen <$> gs), F) /\ st gs F /\ inv start gs /\ (start = 0 -> heads gs)).
  { exists [], (replicate (Z.to_nat (zlen cells)) false). split; [done|]. pose proof (zlen_nonneg cells). split; [split; [rewrite zlen_replicate; lia|intros x Hx; rewrite zlook_replicate by lia; done]|].
    split; [|intros _ a b g h x y _ Ha; by rewrite zlook_nil in Ha]. split; [intros g Hg; by apply elem_of_nil in Hg|]. split; [intros; lia|]. intros a b g h x Ha. by rewrite zlook_nil in Ha. }
  assert (W : wp (forZ start (zlen cells) body s0) (fun s => exists gs F, s = (concat gs, psums (zlen <$> gs), F) /\ st gs F /\ inv (Z.max start (zlen cells)) gs /\ (start = 0 -> heads gs)) False).
  2:{ destruct (forZ start (zlen cells) body s0) as [s| | |]; cbn in W; try done. destruct W as (gs & F & -> & _ & HI). exists gs. done. }
  destruct (Z.le_gt_cases (zlen cells) start) as [Hle|Hlt]; [rewrite forZ_empty by done; cbn; replace (Z.max start (zlen cells)) with start by lia; done|].
  replace (Z.max start (zlen cells)) with (zlen cells) by lia.
  apply (wp_forZ (fun i s => exists gs F, s = (concat gs, psums (zlen <$> gs), F) /\ st gs F /\ inv i gs /\ (start = 0 -> heads gs))); [lia|done| |done].
  clear s0 Hinit. intros i s Hi (gs & F & -> & (HFl & HF) & (I1 & I2 & I3) & I4). unfold body. cbn iota. clear body.
  rewrite (rd_ok F i (bool_decide (i ∈ concat gs))) by (apply HF; lia). cbn [bind].
  destruct (zlook_lt cells i) as [c Hc]; [lia|].
  assert (Hkeep : i ∈ concat gs \/ (forall j d, cells @ j = Some d -> i <> j -> ~ alike p c d) -> inv (i + 1) gs).
  { intros Hor. split; [intros g Hg; destruct (I1 g Hg) as (H1 & H2 & H3 & l & e & Hl & He & Hge); split; [done|]; split; [done|]; split; [done|]; exists l, e; split; [lia|done]|]. split; [|done].
    intros j cj j' d Hj Hcj Hd Hne Hal. destruct (decide (j = i)) as [->|]; [|apply (I2 j cj j' d); [lia|done..]]. assert (cj = c) as -> by congruence.
    destruct Hor as [Hor|Hor]; [apply elem_concat' in Hor as (g & Hg & Hx); eauto|exfalso; by eapply (Hor j' d)]. }
  destruct (bool_decide_reflect (i ∈ concat gs)) as [Hin|Hout]; [cbn; exists gs, F; split; [done|]; split; [done|]; split; [|done]; apply Hkeep; by left|].
  destruct (candidates_ok cells conn connI rev revI nb Hsky Hrev Hused Hw (start =? 0) i c Hc) as (v & -> & Pl & Pv & Pb & Pc). cbn [bind].
  (* cells before the first one are not alike when the search is restricted *)
  assert (Hbefore : forall j d, cells @ j = Some d -> alike p c d -> from (start =? 0) i j).
  { intros j d Hd Hal Hs0. apply Z.eqb_eq in Hs0. destruct (Z.le_gt_cases i j) as [|Hji]; [done|]. exfalso. apply Hout. pose proof (zlook_Some_lt _ _ _ Hd).
    destruct (I2 j d i c) as (g & Hg & Hjg); [lia|done|done|lia|by apply alike_sym|]. destruct (I1 g Hg) as (_ & _ & _ & l & e & _ & He & Hge).
    apply elem_concat'. exists g. split; [done|]. apply Hge. exists c. split; [done|]. apply Hge in Hjg as (d' & Hd' & Hal'). assert (d' = d) as -> by congruence. eapply alike_trans; [done|]. by apply alike_sym. }
  assert (Hiv : i ∈ v). { apply (Pc i c Hc); [intros _; lia|done]. }
  assert (Halv : forall j d, cells @ j = Some d -> alike p c d -> j ∈ v). { intros j d Hd Hal. apply (Pc j d Hd); [by eapply Hbefore|]. intros n Hn' _. by apply (alike_nodes p c d Hal). }
  destruct (Z.ltb_spec 1 (zlen v)) as [H1|H1].
  2:{ cbn. exists gs, F. split; [done|]. split; [done|]. split; [|done]. apply Hkeep. right. intros j d Hd Hij Hal. pose proof (Halv j d Hd Hal) as Hjv. destruct v as [|x [|y v]].
      - by apply elem_of_nil in Hiv.
      - apply elem_of_list_singleton in Hiv, Hjv. congruence.
      - rewrite !zlen_cons in H1. pose proof (zlen_nonneg v). lia. }
  assert (Hv' : exists v', (if start =? 0 then Ok v else bringFirst v i) = Ok (i :: v') /\ i :: v' ≡ₚ v /\ (start = 0 -> i :: v' = v)).
  { destruct (Z.eqb_spec start 0) as [E0|E0].
    - destruct v as [|x v]; [by apply elem_of_nil in Hiv|]. exists v. assert (x = i) as ->; [|done]. destruct (Pv x ltac:(left)) as [Hx _]. specialize (Hx ltac:(done)). inversion Pl as [|? ? _ Hf]; subst. rewrite Forall_forall in Hf. apply elem_of_cons in Hiv as [->|Hiv]; [done|]. specialize (Hf i Hiv). lia.
    - destruct (bring_ok v i Hiv) as (v' & E & Ep). exists v'. done. }
  destruct Hv' as (v' & -> & Hperm & Heq). cbn [bind].
  assert (Hvv' : forall j, j ∈ v' -> 0 <= j < zlen cells). { intros j Hj. apply Pv. rewrite <- Hperm. by right. }
  destruct (in_pool i c v' (concat gs) Hc Hvv') as (f & Hf & ->). cbn [bind].
  destruct (existsb f v') eqn:Ef.
  2:{ rewrite app_nil_r. cbn. exists gs, F. split; [done|]. split; [done|]. split; [|done]. apply Hkeep. right. intros j d Hd Hij Hal. pose proof (Halv j d Hd Hal) as Hjv. rewrite <- Hperm in Hjv. apply elem_of_cons in Hjv as [->|Hjv]; [done|].
      assert (existsb f v' = true); [|congruence]. apply existsb_exists. exists j. split; [by apply elem_of_list_In|]. by apply (Hf j d Hd). }
  set (g0 := i :: List.filter f v').
  assert (Hlast : rd (psums (zlen <$> gs)) (zlen (psums (zlen <$> gs)) - 1) = Ok (zlen (concat gs))).
  { apply rd_ok. rewrite psums_len. replace (zlen (zlen <$> gs) + 1 - 1) with (zlen (zlen <$> gs)) by lia. rewrite psums_end. f_equal. symmetry. apply zlen_concat. }
  rewrite Hlast. cbn [bind]. pose proof (range_mid (concat gs) g0 []) as Hr. rewrite app_nil_r in Hr. rewrite zlen_app. rewrite Hr. cbn [bind].
  set (g := if start =? 0 then g0 else sort g0).
  assert (Hgp : g ≡ₚ g0) by (unfold g; destruct (start =? 0); [done|apply sort_perm]).
  assert (Htake : take (Z.to_nat (zlen (concat gs))) (concat gs ++ g0) = concat gs) by (apply take_app_alt; unfold zlen; lia). rewrite Htake.
  assert (Hcls : forall j, j ∈ g <-> exists d, cells @ j = Some d /\ alike p c d).
  { intros j. rewrite Hgp. unfold g0. split.
    - intros [->|Hj]%elem_of_cons; [exists c; split; [done|apply alike_refl]|]. apply elem_of_list_In, filter_In in Hj as [Hj Hfj]. apply elem_of_list_In in Hj. destruct (zlook_lt cells j) as [d Hd]; [by apply Hvv'|]. exists d. split; [done|]. by apply (Hf j d Hd).
    - intros (d & Hd & Hal). pose proof (Halv j d Hd Hal) as Hjv. rewrite <- Hperm in Hjv. apply elem_of_cons in Hjv as [->|Hjv]; [left|]. right. apply elem_of_list_In, filter_In. split; [by apply elem_of_list_In|]. by apply (Hf j d Hd). }
  destruct (marks_ok g F) as (F' & -> & HF'l & HF'); [intros x Hx; apply Hcls in Hx as (d & Hd & _); rewrite HFl; by eapply zlook_Some_lt|]. cbn [bind wp].
  exists (gs ++ [g]), F'. split.
  { rewrite concat_snoc. f_equal. f_equal. rewrite fmap_app. change (zlen <$> [g]) with [zlen g]. rewrite psums_snoc_eq. f_equal. f_equal. rewrite zlen_app. f_equal. apply zlen_concat. }
  split.
  { split; [congruence|]. intros x Hx. rewrite (HF' x _ (HF x Hx)). f_equal. rewrite concat_snoc. rewrite <- bool_decide_or. apply bool_decide_ext. rewrite elem_of_app. done. }
  split.
  2:{ intros E0 a b h h' x y Hab Ha Hb Hx Hy. pose proof (zlook_Some_lt _ _ _ Ha) as La. pose proof (zlook_Some_lt _ _ _ Hb) as Lb. rewrite zlen_app in La, Lb. change (zlen [g]) with 1 in *.
      rewrite zlook_app_l in Ha by lia. destruct (Z.lt_ge_cases b (zlen gs)); [rewrite zlook_app_l in Hb by lia; by eapply (I4 E0 a b)|]. rewrite zlook_app_r in Hb by lia. replace (b - zlen gs) with 0 in Hb by lia. injection Hb as <-.
      assert (y = i) as ->. { unfold g, g0 in Hy. replace (start =? 0) with true in Hy by lia. injection Hy as <-. done. }
      destruct (I1 h (zlook_elem _ _ _ Ha)) as (Hsl & _ & _ & l & e & Hl & He & Hge). assert (l ∈ h) as Hlh by (apply Hge; exists e; split; [done|apply alike_refl]).
      destruct h as [|x' h]; [by apply elem_of_nil in Hlh|]. injection Hx as <-. inversion Hsl as [|? ? _ Hfa]; subst. rewrite Forall_forall in Hfa. apply elem_of_cons in Hlh as [->|Hlh]; [lia|]. specialize (Hfa l Hlh). lia. }
  split; [|split].
  - intros h [Hh|Hh]%elem_of_app.
    + destruct (I1 h Hh) as (H1' & H2 & H3 & l & e & Hl & He & Hge). split; [done|]. split; [done|]. split; [done|]. exists l, e. split; [lia|done].
    + apply elem_of_list_singleton in Hh as ->. split.
      { unfold g. destruct (Z.eqb_spec start 0) as [E0|E0]; [|apply sort_sorted]. pose proof Pl as Pl'. rewrite <- (Heq E0) in Pl'. inversion Pl' as [|? ? Hs Hfa]; subst. unfold g0. constructor; [by apply SLe_filter|]. rewrite Forall_forall in *. intros y Hy. apply elem_of_list_In, filter_In in Hy as [Hy _]. apply Hfa. by apply elem_of_list_In. }
      split.
      { assert (zlen g = zlen g0) as -> by (unfold zlen; f_equal; by rewrite Hgp). unfold g0. rewrite zlen_cons. apply existsb_exists in Ef as (y & Hy & Hfy). assert (Hy' : y ∈ List.filter f v') by (apply elem_of_list_In, filter_In; done). destruct (List.filter f v') as [|z t]; [by apply elem_of_nil in Hy'|]. rewrite zlen_cons. pose proof (zlen_nonneg t). lia. }
      split; [|exists i, c; split; [lia|]; done]. intros Hsim. rewrite Hgp. apply cnt_NoDup. intros x.
      destruct (decide (x ∈ g0)) as [Hx|Hx]; [|apply cnt_notin in Hx; lia]. rewrite <- Hgp in Hx. apply Hcls in Hx as (d & Hd & Hal). destruct (Hsim d) as (n & Hn0 & Hn1); [by eapply zlook_elem|].
      assert (Hnc : n ∈ c.2) by (apply (alike_nodes p c d Hal); apply cnt_in; lia). destruct Pb as [Pb|Pb]; [lia|]. specialize (Pb n x d Hnc Hn0 Hd).
      assert (cnt v x = cnt (i :: v') x) as E by (apply Permutation_count_occ; by rewrite Hperm). rewrite E in Pb. unfold g0. cbn [count_occ] in *. pose proof (cnt_filter f v' x). destruct (Z.eq_dec i x); lia.
  - intros j cj j' d Hj Hcj Hd Hne Hal. destruct (decide (j = i)) as [->|].
    + exists g. split; [apply elem_of_app; right; left|]. apply Hcls. exists cj. split; [done|]. assert (cj = c) as -> by congruence. apply alike_refl.
    + destruct (I2 j cj j' d) as (h & Hh & Hjh); [lia|done..|]. exists h. split; [apply elem_of_app; by left|done].
  - assert (Hold : forall h x, h ∈ gs -> x ∈ h -> x ∈ g -> False).
    { intros h x Hh Hx Hxg. apply Hout. apply elem_concat'. exists h. split; [done|]. destruct (I1 h Hh) as (_ & _ & _ & l & e & _ & He & Hge). apply Hge in Hx as (d & Hd & Hal). apply Hcls in Hxg as (d' & Hd' & Hal'). assert (d' = d) as -> by congruence.
      apply Hge. exists c. split; [done|]. eapply alike_trans; [done|]. by apply alike_sym. }
    intros a b h h' x Ha Hb Hx Hx'. pose proof (zlook_Some_lt _ _ _ Ha) as La. pose proof (zlook_Some_lt _ _ _ Hb) as Lb. rewrite zlen_app in La, Lb. change (zlen [g]) with 1 in *.
    destruct (Z.lt_ge_cases a (zlen gs)), (Z.lt_ge_cases b (zlen gs)).
    + rewrite zlook_app_l in Ha, Hb by lia. by eapply I3.
    + rewrite zlook_app_l in Ha by lia. rewrite zlook_app_r in Hb by lia. replace (b - zlen gs) with 0 in Hb by lia. injection Hb as <-. exfalso. eapply Hold; [by eapply zlook_elem|done|done].
    + rewrite zlook_app_l in Hb by lia. rewrite zlook_app_r in Ha by lia. replace (a - zlen gs) with 0 in Ha by lia. injection Ha as <-. exfalso. eapply Hold; [by eapply zlook_elem|done|done].
    + lia.
Qed.
Lemma inv_groups gs : inv (Z.max start (zlen cells)) gs -> groups_of p start cells gs.
Proof.
  intros (I1 & I2 & I3). split; [|split; [|split; [done|split]]].
  - intros i j c d Hij Hc Hd. split.
    + intros (g & Hg & Hi & Hj). destruct (I1 g Hg) as (_ & _ & _ & l & e & Hl & He & Hge). apply Hge in Hi as (c' & Hc' & Hal). apply Hge in Hj as (d' & Hd' & Hal'). assert (c' = c) as -> by congruence. assert (d' = d) as -> by congruence.
      split; [eapply alike_trans; [by apply alike_sym|done]|]. exists l, e. split; [lia|done].
    + intros (Hal & l & e & Hl & He & Hle). pose proof (zlook_Some_lt _ _ _ He).
      assert (Hex : exists j' d', cells @ j' = Some d' /\ l <> j' /\ alike p e d'). { destruct (decide (l = i)) as [->|]; [|eauto]. exists j, d. split; [done|]. split; [done|]. by eapply alike_trans. }
      destruct Hex as (j' & d' & Hd' & Hne & Hal'). destruct (I2 l e j' d') as (g & Hg & Hlg); [lia|done..|]. exists g. split; [done|].
      destruct (I1 g Hg) as (_ & _ & _ & l' & e' & Hl' & He' & Hge). apply Hge in Hlg as (e'' & He'' & Hal''). assert (e'' = e) as -> by congruence.
      assert (alike p e' c) as Hec by (eapply alike_trans; [exact Hal''|exact Hle]). split; apply Hge; [exists c; done|exists d]. split; [done|]. eapply alike_trans; [exact Hec|exact Hal].
  - intros g x Hg Hx. destruct (I1 g Hg) as (_ & _ & _ & l & e & Hl & He & Hge). apply Hge in Hx as (d & Hd & _). by eapply zlook_Some_lt.
  - intros g Hg. destruct (I1 g Hg) as (H1 & H2 & _). done.
  - intros Hs g Hg. destruct (I1 g Hg) as (_ & _ & H3 & _). auto.
Qed.
End Common.

Lemma common_cells_ok m cells nb p k : stores m cells -> has_nodes m nb -> (forall v, used cells v -> v < nb) -> -1 <= um_dim m -> policy_for p cells -> with_nodes cells -> 0 <= k ->
  exists gs c cI, findCommonCells m p k = Ok (c, cI) /\ skyline gs c cI /\ groups_of p k cells gs.
Proof.
  intros Hst Hn Hu Hdim Hp Hw Hk. destruct (rev_ok m cells nb Hst Hn Hu) as (r & rI & Er & Hsr). unfold findCommonCells. rewrite Er. cbn [bind].
  unfold getMeshDimension. replace (um_dim m <? -1) with false by lia. cbn [ifthrow bind].
  destruct (stores_get m cells Hst) as (conn & connI & Ec & EI & Hs & _). unfold unchecked. rewrite Ec, EI. destruct Hp as [Hp0 Hp1]. replace (negb (p =? 8) && negb (p =? 9)) with true by lia.
  destruct (alg_ok cells conn connI r rI nb p k Hs Hsr Hu Hw (conj Hp0 Hp1) Hk) as (gs & -> & HI & _). exists gs, (concat gs), (psums (zlen <$> gs)). split; [done|]. split; [apply skyline_psums|]. eapply inv_groups; try eassumption; done.
Qed.
