From Verif Require Import Base DataArray ArrLib SearchSpec StdProofs StrModel StrSpec StrProofs StrProofs2 StrProofs4 ConnProofs ConnProofs2 ConnProofs5 AmrModel AmrSpec AmrProofs AmrProofs2 AmrProofs3 AmrProofs4.
From Coq Require Import ZifyBool ZifyNat.

Lemma okp_dims st part facts : okp st part facts -> Forall (fun r => fst r <= snd r) part.
Proof. induction 1; constructor; [simpl; lia|done]. Qed.
Lemma okp_nonneg st part facts : okp st part facts -> Forall (Z.le 0) st.
Proof. induction 1; constructor; [lia|done]. Qed.
Lemma okp_len st part facts : okp st part facts -> zlen st = zlen part /\ zlen st = zlen facts.
Proof. induction 1 as [|n st a b part f facts Ha Hab Hb Hf H [IH1 IH2]]; [done|]. rewrite !zlen_cons. split; [f_equal; done|lia]. Qed.
Lemma fits_okp {A} g st part facts (fine coarse : da A) : fits g st part facts fine coarse -> okp st part facts.
Proof. intros [? ? [? ?] ? ? ? ? ?]. by apply okp_in. Qed.
Lemma fine_ne st part facts : st <> [] -> okp st part facts -> fine_st part facts <> [].
Proof. intros H Hk. inversion Hk; subst; done. Qed.
Lemma ghosted_ne g st : st <> [] -> ghosted g st <> [].
Proof. by destruct st. Qed.
(** The checks pass. *)
Lemma checks_ok {A} g st part facts (fine coarse : da A) k : 0 <= g -> fits g st part facts fine coarse -> ghostChecks g st (Some fine) part facts (Some coarse) k = k fine coarse.
Proof.
  intros Hg Hf. pose proof (fits_okp _ _ _ _ _ _ Hf) as Hk. destruct Hf as [Hd Hb [Hl Hp] [Ha1 Ha2] _ Hnc Hc Hfi]. pose proof (okp_len _ _ _ Hk) as [L1 L2]. pose proof (dim_ok_ne _ Hd) as Hne.
  unfold ghostChecks. replace (g <? 0) with false by lia. cbn [ifthrow]. rewrite <- L1, <- L2, Z.eqb_refl. cbn [negb orb ifthrow]. rewrite Ha1, Ha2. cbn [negb orb ifthrow].
  change (withGhost g st) with (ghosted g st). rewrite nbStruct_ok by (first [by apply ghosted_ne|apply ghosted_nonneg; [done|by eapply okp_nonneg]]). cbn [bind].
  rewrite Hnc, Z.eqb_refl, Hc, Z.eqb_refl. cbn [negb ifthrow]. rewrite getDims_ok by (by eapply okp_dims). cbn [bind]. change (withGhost g (zip_with Z.mul (box_dims part) facts)) with (ghosted g (fine_st part facts)).
  rewrite nbStruct_ok; [|apply ghosted_nonneg; [done|by eapply fine_nonneg]|apply ghosted_ne; by eapply fine_ne]. cbn [bind]. rewrite Hfi, Z.eqb_refl. done.
Qed.
Lemma skip_plain {A} n (s : list A * Z) : (let '(out, ip) := s in (out, ip + n)) = skip n s.
Proof. by destruct s. Qed.
Lemma skip0 {A} (s : list A * Z) : skip 0 s = s.
Proof. destruct s. cbn [skip]. by rewrite Z.add_0_r. Qed.
Definition result {A} (nc : Z) (r : res (list A * Z)) : res (da A) := let* s := r in Ok (DA true nc s.1).

Ltac inv3 H := inversion H as [|? ? ? ? ? ? ? ? ? ? ? H']; subst; clear H.
Lemma ghost_prog {A} plus g st part facts (fine coarse : da A) : 0 <= g -> fits g st part facts fine coarse ->
  CondenseFineToCoarseGhost plus st (Some fine) part facts (Some coarse) g = result (da_nc coarse) (foldM (FC plus (da_nc fine) (da_vals fine)) (steps g st part facts) (da_vals coarse, 0)).
Proof.
  intros Hg Hf. unfold CondenseFineToCoarseGhost. rewrite checks_ok by done. pose proof (fits_okp _ _ _ _ _ _ Hf) as Hk. rewrite getDims_ok by (by eapply okp_dims). cbn [bind]. destruct (wp_length3 st) as [(s0 & ->)|[(s0 & s1 & ->)|(s0 & s1 & s2 & ->)]]; [by destruct Hf| | |].
  - inversion Hk as [|? ? a0 b0 ? f0 ? Ha0 Hb0 Hn0 Hf0 Hk0]; subst. inversion Hk0; subst. change (box_dims [(a0, b0)]) with [b0 - a0].
    rewrite <- steps1 by lia. rewrite row_ok by lia. cbn [skip]. rewrite Z.add_0_l. unfold result.
    match goal with |- context [forZ 0 (b0 - a0) ?f ?s] => destruct (forZ 0 (b0 - a0) f s) as [[out ip]| | |] end; done.
  - inversion Hk as [|? ? a0 b0 ? f0 ? Ha0 Hb0 Hn0 Hf0 Hk0]; subst. inversion Hk0 as [|? ? a1 b1 ? f1 ? Ha1 Hb1 Hn1 Hf1 Hk1]; subst. inversion Hk1; subst. change (box_dims [(a0, b0); (a1, b1)]) with [b0 - a0; b1 - a1].
    rewrite <- steps2 by lia. rewrite plane_ok by lia. cbn [skip]. rewrite Z.add_0_l.
    rewrite (forZ_carry (b1 - a1) _ (fun j s => forZ 0 f1 (fun y s =>
      let* s := forZ 0 (b0 - a0) (fun i s => forZ 0 f0 (fun x s => acc plus (da_nc fine) (da_vals fine) (a0 + g + (s0 + 2 * g) * (a1 + g) + j * (s0 + 2 * g) + i) (negb (y =? 0) || negb (x =? 0)) s) s) (skip g s) in Ok (skip g s)) s) _ (s0 + 2 * g)); [|lia|].
    + replace (((b0 - a0) * f0 + 2 * g) * g) with (g * ((b0 - a0) * f0 + 2 * g)) by lia. unfold result.
      match goal with |- context [forZ 0 (b1 - a1) ?f ?s] => destruct (forZ 0 (b1 - a1) f s) as [[out ip]| | |] end; done.
    + intros j s _. cbn [bind]. match goal with |- bind ?a _ = bind ?b _ => replace b with a; [by destruct a as [s'| | |]; cbn [bind]; do 2 f_equal; lia|] end.
      apply forZ_ext'. intros y [out ip] _. done.
  - inversion Hk as [|? ? a0 b0 ? f0 ? Ha0 Hb0 Hn0 Hf0 Hk0]; subst. inversion Hk0 as [|? ? a1 b1 ? f1 ? Ha1 Hb1 Hn1 Hf1 Hk1]; subst. inversion Hk1 as [|? ? a2 b2 ? f2 ? Ha2 Hb2 Hn2 Hf2 Hk2]; subst. inversion Hk2; subst.
    change (box_dims [(a0, b0); (a1, b1); (a2, b2)]) with [b0 - a0; b1 - a1; b2 - a2].
    rewrite <- steps3 by lia. rewrite vol_ok by lia. cbn [skip]. rewrite Z.add_0_l.
    rewrite (forZ_carry (b2 - a2) _ (fun k s => forZ 0 f2 (fun z s =>
      let* s := forZ 0 (b1 - a1) (fun j s => forZ 0 f1 (fun y s =>
      let* s := forZ 0 (b0 - a0) (fun i s => forZ 0 f0 (fun x s => acc plus (da_nc fine) (da_vals fine)
        (a0 + g + (s0 + 2 * g) * (a1 + g) + (s0 + 2 * g) * (s1 + 2 * g) * (a2 + g) + k * ((s0 + 2 * g) * (s1 + 2 * g)) + j * (s0 + 2 * g) + i) ((negb (z =? 0) || negb (y =? 0)) || negb (x =? 0)) s) s) (skip g s) in Ok (skip g s)) s)
        (skip (g * ((b0 - a0) * f0 + 2 * g)) s) in
      Ok (skip (g * ((b0 - a0) * f0 + 2 * g)) s)) s) _ ((s0 + 2 * g) * (s1 + 2 * g))); [|lia|].
    + replace (((b0 - a0) * f0 + 2 * g) * ((b1 - a1) * f1 + 2 * g) * g) with (g * (((b1 - a1) * f1 + 2 * g) * ((b0 - a0) * f0 + 2 * g))) by lia. unfold result.
      match goal with |- context [forZ 0 (b2 - a2) ?f ?s] => destruct (forZ 0 (b2 - a2) f s) as [[out ip]| | |] end; done.
    + intros k s _. cbn [bind]. match goal with |- bind ?a _ = bind ?b _ => replace b with a; [by destruct a as [s'| | |]; cbn [bind]; do 2 f_equal; lia|] end.
      apply forZ_ext'. intros z [out ip] _. match goal with |- bind ?a _ = bind ?b _ => replace b with a; [by destruct a as [[? ?]| | |]|] end.
      apply forZ_ext'. intros j t _. apply forZ_ext'. intros y [out' ip'] _. match goal with |- bind ?a _ = bind ?b _ => replace b with a; [by destruct a as [[? ?]| | |]|] end.
      apply forZ_ext'. intros i t' _. apply forZ_ext'. intros x u _. f_equal. lia.
Qed.
Lemma nbRange_from x st part facts : okp st part facts -> foldM (fun ret '(a, b) => throw_if (a <? 0) || (b <? 0) || (b - a <? 0) >>> Ok (ret * (b - a))) part x = Ok (x * grid_nb (box_dims part)).
Proof.
  intros H. revert x. induction H as [|n st a b part f facts Ha Hab Hb Hf H IH]; intros x; [cbn; f_equal; lia|]. cbn [foldM]. replace ((a <? 0) || (b <? 0) || (b - a <? 0)) with false by lia. cbn [ifthrow bind].
  rewrite IH. change (box_dims ((a, b) :: part)) with (b - a :: box_dims part). cbn [grid_nb]. f_equal. lia.
Qed.
Lemma nbRange_ok st part facts : okp st part facts -> DeduceNumberOfGivenRangeInCompactFrmt part = Ok (grid_nb (box_dims part)).
Proof. intros H. unfold DeduceNumberOfGivenRangeInCompactFrmt. rewrite (nbRange_from _ _ _ _ H). f_equal. lia. Qed.
Lemma fine_nb st part facts : okp st part facts -> grid_nb (fine_st part facts) = grid_nb facts * grid_nb (box_dims part).
Proof.
  induction 1 as [|n st a b part f facts Ha Hab Hb Hf H IH]; [done|]. rewrite fine_cons. change (box_dims ((a, b) :: part)) with (b - a :: box_dims part). cbn [grid_nb]. rewrite IH. lia.
Qed.
Lemma ghosted0 st : ghosted 0 st = st.
Proof. unfold ghosted. induction st as [|n st IH]; [done|]. rewrite fmap_cons, IH. f_equal. lia. Qed.
Lemma okp_facts st part facts : okp st part facts -> Forall (Z.lt 0) facts.
Proof. induction 1; constructor; done. Qed.
Lemma steps_len g st part facts : 0 <= g -> okp st part facts -> zlen (steps g st part facts) = grid_nb (ghosted g (fine_st part facts)).
Proof. intros Hg H. unfold steps. rewrite zlen_fmap. apply allpos_len. apply ghosted_nonneg; [done|]. by eapply fine_nonneg. Qed.
Lemma plainChecks_ok {A} st part facts (fine coarse : da A) k : fits 0 st part facts fine coarse -> grid_nb facts < 2147483648 ->
  condenseChecks st fine part facts coarse k = if grid_nb (box_dims part) =? 0 then Ok coarse else k.
Proof.
  intros Hf Hb. pose proof (fits_okp _ _ _ _ _ _ Hf) as Hk. destruct Hf as [Hd _ _ _ _ Hnc Hc Hfi]. rewrite ghosted0 in *. unfold condenseChecks. rewrite nbStruct_ok by (first [by apply dim_ok_ne|by eapply okp_nonneg]). cbn [bind].
  rewrite (nbRange_ok _ _ _ Hk). cbn [bind]. rewrite Hnc, Z.eqb_refl, Hc, Z.eqb_refl. cbn [negb ifthrow]. rewrite (fine_nb _ _ _ Hk) in Hfi. rewrite Hfi.
  destruct (grid_nb (box_dims part) =? 0) eqn:E.
  - replace (grid_nb facts * grid_nb (box_dims part) =? 0) with true by nia. done.
  - rewrite Z.rem_mul by lia. cbn [negb ifthrow Z.eqb]. rewrite acc_mul by (first [by eapply okp_facts|lia]). rewrite Z.mul_1_l, Z.eqb_refl. done.
Qed.
Lemma nil_len {B} (l : list B) : zlen l = 0 -> l = [].
Proof. destruct l; [done|]. rewrite zlen_cons. pose proof (zlen_nonneg l). lia. Qed.
Lemma bind_skip0 {A} (r : res (list A * Z)) : (let* s := r in Ok (skip 0 s)) = r.
Proof. destruct r as [s| | |]; [|done..]. cbn [bind]. by rewrite skip0. Qed.
Ltac strip := match goal with |- bind ?a _ = bind ?b _ => replace b with a; [by destruct a as [s'| | |]; cbn [bind]; do 2 f_equal; lia|] end.
Lemma plain_prog {A} plus st part facts (fine coarse : da A) : fits 0 st part facts fine coarse -> grid_nb facts < 2147483648 ->
  CondenseFineToCoarse plus st (Some fine) part facts (Some coarse) = result (da_nc coarse) (foldM (FC plus (da_nc fine) (da_vals fine)) (steps 0 st part facts) (da_vals coarse, 0)).
Proof.
  intros Hf Hb. pose proof (fits_okp _ _ _ _ _ _ Hf) as Hk. unfold CondenseFineToCoarse. rewrite plainChecks_ok by done. pose proof (okp_len _ _ _ Hk) as [L1 L2]. rewrite <- L1, <- L2, Z.eqb_refl. cbn [negb orb ifthrow].
  destruct (fits_alloc _ _ _ _ _ _ Hf) as [Ha1 Ha2]. rewrite Ha1, Ha2. cbn [negb orb ifthrow]. rewrite getDims_ok by (by eapply okp_dims). cbn [bind].
  destruct (grid_nb (box_dims part) =? 0) eqn:E.
  { assert (steps 0 st part facts = []) as ->. { apply nil_len. rewrite steps_len by done. rewrite ghosted0, (fine_nb _ _ _ Hk). nia. } destruct coarse as [al nc vals]. simpl in Ha2. subst al. done. }
  destruct (wp_length3 st) as [(s0 & ->)|[(s0 & s1 & ->)|(s0 & s1 & s2 & ->)]]; [by destruct Hf| | |].
  - inversion Hk as [|? ? a0 b0 ? f0 ? Ha0 Hb0 Hn0 Hf0 Hk0]; subst. inversion Hk0; subst. change (box_dims [(a0, b0)]) with [b0 - a0].
    rewrite <- steps1 by lia. rewrite row_ok by lia. rewrite skip0. unfold result. rewrite Z.add_0_r.
    match goal with |- context [forZ 0 (b0 - a0) ?f ?s] => destruct (forZ 0 (b0 - a0) f s) as [[out ip]| | |] end; done.
  - inversion Hk as [|? ? a0 b0 ? f0 ? Ha0 Hb0 Hn0 Hf0 Hk0]; subst. inversion Hk0 as [|? ? a1 b1 ? f1 ? Ha1' Hb1 Hn1 Hf1 Hk1]; subst. inversion Hk1; subst. change (box_dims [(a0, b0); (a1, b1)]) with [b0 - a0; b1 - a1].
    rewrite <- steps2 by lia. rewrite plane_ok by lia. rewrite Z.mul_0_l, skip0.
    rewrite (forZ_carry (b1 - a1) _ (fun j s => forZ 0 f1 (fun y s =>
      let* s := forZ 0 (b0 - a0) (fun i s => forZ 0 f0 (fun x s => acc plus (da_nc fine) (da_vals fine) (a0 + 0 + (s0 + 2 * 0) * (a1 + 0) + j * (s0 + 2 * 0) + i) (negb (y =? 0) || negb (x =? 0)) s) s) (skip 0 s) in Ok (skip 0 s)) s) _ s0); [|lia|].
    + rewrite bind_skip0. unfold result. match goal with |- context [forZ 0 (b1 - a1) ?f ?s] => destruct (forZ 0 (b1 - a1) f s) as [[out ip]| | |] end; done.
    + intros j s _. cbn [bind]. strip. apply forZ_ext'. intros y t _. rewrite bind_skip0, skip0. apply forZ_ext'. intros i t' _. apply forZ_ext'. intros x u _. f_equal. lia.
  - inversion Hk as [|? ? a0 b0 ? f0 ? Ha0 Hb0 Hn0 Hf0 Hk0]; subst. inversion Hk0 as [|? ? a1 b1 ? f1 ? Ha1' Hb1 Hn1 Hf1 Hk1]; subst. inversion Hk1 as [|? ? a2 b2 ? f2 ? Ha2' Hb2 Hn2 Hf2 Hk2]; subst. inversion Hk2; subst.
    change (box_dims [(a0, b0); (a1, b1); (a2, b2)]) with [b0 - a0; b1 - a1; b2 - a2].
    rewrite <- steps3 by lia. rewrite vol_ok by lia. rewrite !Z.mul_0_l, bind_skip0, skip0.
    rewrite (forZ_carry (b2 - a2) _ (fun k s => forZ 0 f2 (fun z s =>
      let* s := forZ 0 (b1 - a1) (fun j s => forZ 0 f1 (fun y s =>
      let* s := forZ 0 (b0 - a0) (fun i s => forZ 0 f0 (fun x s => acc plus (da_nc fine) (da_vals fine)
        (a0 + 0 + (s0 + 2 * 0) * (a1 + 0) + (s0 + 2 * 0) * (s1 + 2 * 0) * (a2 + 0) + k * ((s0 + 2 * 0) * (s1 + 2 * 0)) + j * (s0 + 2 * 0) + i) ((negb (z =? 0) || negb (y =? 0)) || negb (x =? 0)) s) s) (skip 0 s) in Ok (skip 0 s)) s)
        (skip 0 s) in
      Ok (skip 0 s)) s) _ (s0 * s1)); [|lia|].
    + unfold result. match goal with |- context [forZ 0 (b2 - a2) ?f ?s] => destruct (forZ 0 (b2 - a2) f s) as [[out ip]| | |] end; done.
    + intros k s _. cbn [bind]. strip. apply forZ_ext'. intros z t _. rewrite bind_skip0, skip0. apply forZ_ext'. intros j t1 _. apply forZ_ext'. intros y t2 _. rewrite bind_skip0, skip0.
      apply forZ_ext'. intros i t3 _. apply forZ_ext'. intros x u _. f_equal. lia.
Qed.
Lemma omap_ext_in {B C} (f g : B -> option C) (l : list B) : (forall x, x ∈ l -> f x = g x) -> omap f l = omap g l.
Proof. induction l as [|x l IH]; intros H; [done|]. cbn. rewrite (H x) by left. rewrite IH by (intros; apply H; by right). done. Qed.
(** What the steps compute. *)
Lemma steps_result {A} plus g st part facts (fine coarse : da A) : 0 <= g -> fits g st part facts fine coarse ->
  exists r, result (da_nc coarse) (foldM (FC plus (da_nc fine) (da_vals fine)) (steps g st part facts) (da_vals coarse, 0)) = Ok r /\ condensed plus g st part facts fine coarse r.
Proof.
  intros Hg Hf. pose proof (fits_okp _ _ _ _ _ _ Hf) as Hk. destruct Hf as [_ _ _ _ [Hw1 Hw2] Hnc Hc Hfi]. destruct (da_wf_len _ Hw1) as (L1 & N1 & C1). destruct (da_wf_len _ Hw2) as (L2 & N2 & C2).
  destruct (scatter plus (da_nc fine) (da_vals fine) (grid_nb (ghosted g st)) (steps g st part facts) (da_vals coarse)) as (out & H1 & H2 & H3).
  - done.
  - rewrite Hnc, <- Hc. done.
  - rewrite steps_len by done. rewrite <- Hfi. lia.
  - by apply steps_ordered.
  - unfold result. rewrite H1. cbn [bind fst]. exists (DA true (da_nc coarse) out). split; [done|].
    assert (da_nt (DA true (da_nc coarse) out) = da_nt coarse) as Hnt by (unfold da_nt; cbn [da_nc da_vals]; by rewrite H2).
    split; [done|]. split; [split; [done|]; exists (da_nt coarse); cbn [da_nc da_vals]; rewrite H2; done|]. split; [done|]. split; [done|]. split.
    + intros cell c Hcell Hcc. exists (srcs (tuple_of g st cell) (steps g st part facts) 0).
      assert (enumerates (children g part facts cell) (srcs (tuple_of g st cell) (steps g st part facts) 0)) as Hen.
      { destruct (srcs_enum (tuple_of g st cell) (steps g st part facts)) as [E1 E2]. split; [done|]. intros i. rewrite E2. by apply steps_children. }
      assert (forall i, i ∈ srcs (tuple_of g st cell) (steps g st part facts) 0 -> 0 <= i < da_nt fine) as Hr.
      { intros i Hi. apply Hen in Hi as (x & Hx & _ & ->). rewrite Hfi. apply grid_id_range. by apply moved_in. }
      assert (forall i, i ∈ srcs (tuple_of g st cell) (steps g st part facts) 0 -> ij fine i c = da_vals fine @ (i * da_nc fine + c)) as Hij.
      { intros i Hi. unfold ij. replace ((0 <=? i) && (0 <=? c) && (c <? da_nc fine)) with true by (specialize (Hr i Hi); lia). done. }
      split; [done|]. split.
      * intros i Hi. rewrite Hij by done. specialize (Hr i Hi). destruct (zlook_lt (da_vals fine) (i * da_nc fine + c)) as [v ->]; [nia|done].
      * assert (0 <= tuple_of g st cell < grid_nb (ghosted g st)) as Ht. { apply grid_id_range. by eapply cell_in. }
        unfold ij at 1. cbn [da_nc da_vals]. replace ((0 <=? tuple_of g st cell) && (0 <=? c) && (c <? da_nc coarse)) with true by lia. rewrite <- Hnc. rewrite H3 by lia. unfold value.
        rewrite (omap_ext_in (fun i => ij fine i c) (fun i => da_vals fine @ (i * da_nc fine + c))) by done.
        destruct (low_child st part facts cell Hk Hcell) as [Hl1 Hl2]. assert (tuple_of g (fine_st part facts) (low part facts cell) ∈ srcs (tuple_of g st cell) (steps g st part facts) 0) as Hin by (apply Hen; by exists (low part facts cell)).
        pose proof (Hr _ Hin) as Hri. destruct (zlook_lt (da_vals fine) (tuple_of g (fine_st part facts) (low part facts cell) * da_nc fine + c)) as [v Hv]; [nia|].
        assert (v ∈ omap (fun i => da_vals fine @ (i * da_nc fine + c)) (srcs (tuple_of g st cell) (steps g st part facts) 0)) as Hvin by (apply elem_of_list_omap; by eexists).
        destruct (omap _ _); [by apply elem_of_nil in Hvin|done].
    + intros i c Hno. unfold ij. cbn [da_nc da_vals]. destruct ((0 <=? i) && (0 <=? c) && (c <? da_nc coarse)) eqn:E; [|done].
      destruct (decide (i < grid_nb (ghosted g st))) as [Hi|Hi]; [|rewrite !zlook_ge by nia; done].
      rewrite <- Hnc. rewrite H3 by lia. unfold value. destruct (srcs i (steps g st part facts) 0) as [|k r] eqn:Es; [done|].
      assert (k ∈ srcs i (steps g st part facts) 0) as Hk' by (rewrite Es; left). apply srcs_elem in Hk' as [ag Hk']. destruct (steps_dst _ _ _ _ _ _ _ Hg Hk Hk') as (x & cell & _ & _ & Hin & He & _). by destruct (Hno cell Hin).
Qed.
Lemma condense_ok {A} plus st part facts (fine coarse : da A) : fits 0 st part facts fine coarse -> grid_nb facts < 2147483648 ->
  exists r, CondenseFineToCoarse plus st (Some fine) part facts (Some coarse) = Ok r /\ condensed plus 0 st part facts fine coarse r.
Proof. intros Hf Hb. rewrite plain_prog by done. by apply steps_result. Qed.
Lemma condense_ghost {A} plus g st part facts (fine coarse : da A) : 0 <= g -> fits g st part facts fine coarse ->
  exists r, CondenseFineToCoarseGhost plus st (Some fine) part facts (Some coarse) g = Ok r /\ condensed plus g st part facts fine coarse r.
Proof. intros Hg Hf. rewrite ghost_prog by done. by apply steps_result. Qed.
