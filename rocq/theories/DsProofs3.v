From Coq Require Import QArith ZifyBool ZifyNat.
From Verif Require Import CellModel Base DataArray ArrLib FillLib StdModel StdProofs IndexSpec IndexProofs2 IndexProofs3 IndexProofs4 SkyModel SkyProofs RenumModel RenumSpec RenumProofs RenumProofs2 PartSpec PartModel PartProofs4 CellTable UmModel UmSpec UmProofs UmProofs2 UmProofs3 UmProofs8 UmProofs9 UmProofs10 UcModel UcSpec UcProofs UcProofs2 UcProofs3 UcProofs4 UcProofs5 DsModel DsSpec DsProofs DsProofs2.
Local Open Scope Z_scope.

Section Gen.
Context (g : gen) (nbr : nbrer) (m : umesh) (cells : list cell) (fss : list (list cell)) (nb : Z).
Hypothesis Hst : stores m cells.
Hypothesis Hnd : has_nodes m nb.
Hypothesis Hsons : Forall2 (sons g) cells fss.
Hypothesis Hdim : 0 <= um_dim m - g_delta g <= 3.
Hypothesis Hdim0 : -1 <= um_dim m.
Hypothesis Hgood : forall f, f ∈ concat fss -> good_son (um_dim m - g_delta g) nb f.
Let cs := concat fss.
Let dim := um_dim m - g_delta g.
(** The numbers given by the function are found. *)
Definition numbered (r vals : list Z) : Prop := zlen vals = zlen r /\ forall i d v j, r @ i = Some d -> vals @ i = Some v -> first_pos r d j ->
  if i =? j then nbr d None = Ok v else
  forall c c' k, cs @ i = Some c -> cs @ j = Some c' -> GetCellModel c.1 = Ok k -> nbr d (Some (k, c'.2, c.2)) = Ok v.

Lemma gen_ok : (forall r K, quotient 3 0 cs r K -> exists vals, numbered r vals) -> exists m' new r K vals,
  buildDescendingConnectivityGen g nbr m = Ok (m', vals, psums (zlen <$> fss), concat (owners 0 (reshape fss r) <$> seqZ 0 K), psums (zlen <$> (owners 0 (reshape fss r) <$> seqZ 0 K))) /\
  stores m' new /\ typed m' new /\ um_dim m' = dim /\ um_coords m' = um_coords m /\
  quotient 3 0 cs r K /\ zlen new = K /\ 0 <= K /\ (forall t i, first_pos r t i -> new @ t = cs @ i) /\ numbered r vals.
Proof.
  intros Hnum. assert (Hnb : 0 <= nb) by (destruct Hnd as (d & _ & _ & Hw' & <-); destruct (da_wf_len d Hw') as (_ & H & _); done). assert (Hson : forall f n, f ∈ cs -> n ∈ f.2 -> 0 <= n < nb) by (intros f n Hf; destruct (Hgood f Hf) as (_ & H & _); apply H).
  unfold buildDescendingConnectivityGen. rewrite (nofuse_ok g m cells fss nb Hst Hnd Hsons ltac:(lia) Hdim0 Hgood). cbn [bind]. fold dim cs. set (ret := um dim (um_coords m) cs).
  assert (Hst1 : stores ret cs) by apply um_stores. rewrite (numCells_ok ret cs Hst1). cbn [bind].
  set (F := occ 0 cs). assert (HF : forall i v, (i, v) ∈ F -> 0 <= i /\ v < nb) by (intros i v; apply F_ok; done).
  assert (Hps : cof F <$> seqZ 0 nb = cells_of_node 0 cs <$> seqZ 0 nb) by (apply list_fmap_ext; intros j x _; apply cof_occ).
  set (rI := psums (zlen <$> (cells_of_node 0 cs <$> seqZ 0 nb))).
  assert (Hback : rd rI (zlen rI - 1) = Ok (zsum (zlen <$> (cof F <$> seqZ 0 nb)))).
  { unfold rI. rewrite Hps. apply rd_ok. rewrite psums_len. replace (_ + 1 - 1) with (zlen (zlen <$> (cells_of_node 0 cs <$> seqZ 0 nb))) by lia. apply psums_end. }
  rewrite Hback. cbn [bind]. unfold unchecked. cbn [ret um um_connI um_conn].
  assert (Hsky : skyline (pk <$> cs) (concat (pk <$> cs)) (psums (lens cs))) by apply (skyline_psums (pk <$> cs)).
  rewrite (until_ok cs _ _ _ _ Hsky). fold F. rewrite <- (slot_start nb F). unfold rI. rewrite <- Hps. rewrite (fill_loop nb F Hnb HF F []) by (by rewrite app_nil_r). cbn [bind]. rewrite slot_end. rewrite Hps.
  assert (Hw : with_nodes cs). { intros c Hc. destruct (Hgood c Hc) as (_ & H2 & n & H3). split; [|intros n' Hn'; apply H2 in Hn'; lia]. assert (n ∈ c.2) by (apply cnt_in; lia). exists n. split; [done|]. by apply H2. }
  assert (Hsim : simple cs). { intros c Hc. destruct (Hgood c Hc) as (_ & H2 & n & H3). exists n. split; [|done]. apply H2. apply cnt_in. lia. }
  assert (Hp : policy_for 3 cs) by (split; [lia|lia]).
  assert (Hused : forall v, used cs v -> v < nb). { intros v (_ & c & Hc & Hv). by eapply Hson. }
  destruct (alg_ok cs (concat (pk <$> cs)) (psums (lens cs)) (concat (cells_of_node 0 cs <$> seqZ 0 nb)) (psums (zlen <$> (cells_of_node 0 cs <$> seqZ 0 nb))) nb 3 0 Hsky ltac:(apply skyline_psums) Hused Hw Hp ltac:(lia)) as (gs & -> & HI & Hh). cbn [bind].
  assert (Hg : groups_of 3 0 cs gs) by (eapply inv_groups; try eassumption; try done; apply skyline_psums). specialize (Hh eq_refl).
  destruct (conv_ok 3 0 cs gs (concat gs) (psums (zlen <$> gs)) Hg ltac:(apply skyline_psums)) as (r & K & -> & HK & HQ). cbn [bind]. rewrite initialised_ok. cbn [bind]. rewrite psums_len, zlen_fmap. replace (zlen gs + 1 - 1) with (zlen gs) by lia.
  destruct Hg as (G1 & G2 & G3 & G4 & G5). specialize (G5 Hsim). pose proof HQ as (Hrl & Hr & Hrv & Hro). pose proof (zlen_nonneg cs).
  destruct (marks_loop gs (zlen cs)) as (M & -> & HMl & HM); [lia|intros x Hx; apply elem_concat' in Hx as (h & Hh' & Hx); by eapply G2|]. cbn [bind].
  destruct (bis_inverse r K HK Hrv) as (q & -> & Hql & Hq). cbn [bind]. rewrite initialised_ok. cbn [bind].
  (* classes *)
  assert (Hcls : forall i j a, r @ i = Some a -> r @ j = Some a -> exists c d, cs @ i = Some c /\ cs @ j = Some d /\ alike 3 c d).
  { intros i j a Hi Hj. destruct (zlook_lt cs i) as [c Hc]; [apply zlook_Some_lt in Hi; lia|]. destruct (zlook_lt cs j) as [d Hd]; [apply zlook_Some_lt in Hj; lia|]. exists c, d. split; [done|]. split; [done|]. destruct (proj1 (Hr i j c d a a Hc Hd Hi Hj) eq_refl) as [-> |[H' _]]; [|done]. assert (c = d) as -> by congruence. apply alike_refl. }
  assert (Hgr : forall h x y a, h ∈ gs -> x ∈ h -> r @ x = Some a -> (y ∈ h <-> r @ y = Some a)).
  { intros h x y a Hh' Hx Ha. destruct (zlook_lt cs x) as [c Hc]; [by eapply G2|]. split.
    - intros Hy. destruct (zlook_lt cs y) as [d Hd]; [by eapply G2|]. destruct (zlook_lt r y) as [b Hb]; [rewrite Hrl; by eapply G2|]. destruct (decide (x = y)) as [->|N]; [done|]. assert (alike 3 c d /\ exists l e, 0 <= l /\ cs @ l = Some e /\ alike 3 e c) as HA by (apply (G1 x y c d N Hc Hd); eauto). rewrite Hb. f_equal. symmetry. apply (Hr x y c d a b Hc Hd Ha Hb). by right.
    - intros Hb. destruct (decide (x = y)) as [->|N]; [done|]. destruct (zlook_lt cs y) as [d Hd]; [apply zlook_Some_lt in Hb; lia|]. destruct (proj1 (Hr x y c d a a Hc Hd Ha Hb) eq_refl) as [?|HA]; [done|]. apply (G1 x y c d N Hc Hd) in HA as (h' & Hh'' & Hx' & Hy). apply elem_of_zlook in Hh' as [ia Hia]. apply elem_of_zlook in Hh'' as [ib Hib]. assert (ia = ib) as -> by (by eapply G3). assert (h = h') as -> by congruence. done. }
  assert (Hin : forall i j a, r @ i = Some a -> r @ j = Some a -> i <> j -> i ∈ concat gs).
  { intros i j a Hi Hj N. destruct (zlook_lt cs i) as [c Hc]; [apply zlook_Some_lt in Hi; lia|]. destruct (zlook_lt cs j) as [d Hd]; [apply zlook_Some_lt in Hj; lia|]. destruct (proj1 (Hr i j c d a a Hc Hd Hi Hj) eq_refl) as [?|HA]; [done|]. apply (G1 i j c d N Hc Hd) in HA as (h & Hh' & Hi' & _). apply elem_concat'. eauto. }
  (* part *)
  assert (Hqv : forall v, v ∈ q -> 0 <= v < zlen cs).
  { intros v Hx. apply elem_of_zlook in Hx as [t Ht]. pose proof (zlook_Some_lt _ _ _ Ht). destruct (first_pos_exists r t) as [i Hi]; [apply Hrv; lia|]. rewrite (Hq t i Hi) in Ht. injection Ht as ->. destruct Hi as [Hi _]. apply zlook_Some_lt in Hi. lia. }
  destruct (picked_ex cs q Hqv) as [new Hnew]. destruct (part_ok ret cs q new Hst1 Hnew) as (m1 & E1 & Hs1 & Ht1 & Hd1 & Hc1). unfold buildPartOfMySelf, getMeshDimension. cbn [ret um um_dim]. replace (dim <? -1) with false by (unfold dim; lia). cbn [ifthrow bind]. replace (dim =? -1) with false by (unfold dim; lia). cbn [negb].
  fold ret. change (UM dim (um_coords m) (Some (concat (pk <$> cs))) (Some (psums (lens cs))) (typesOf cs)) with ret. rewrite E1. cbn [bind].
  (* desc *)
  rewrite (rd_ok (psums (zlen <$> fss)) _ (zlen cs)); [|rewrite psums_len; replace (_ + 1 - 1) with (zlen (zlen <$> fss)) by lia; rewrite psums_end; f_equal; symmetry; apply zlen_concat]. cbn [bind].
  destruct (Hnum r K HQ) as (vals & Hvals). destruct Hvals as (Hvl & Hvals). assert (Hvl' : zlen vals = zlen cs) by lia. rewrite <- Hvl'.
  rewrite (forZ_write _ vals).
  2:{ intros i v l Hv. pose proof (zlook_Some_lt _ _ _ Hv). destruct (zlook_lt r i) as [d Hd]; [lia|]. rewrite (rd_ok M i (bool_decide (i ∈ concat gs))) by (apply HM; lia). cbn [bind]. rewrite (rd_ok _ _ _ Hd). cbn [bind].
      destruct (first_pos_exists r d) as [j Hj]; [by eapply zlook_elem|]. specialize (Hvals i d v j Hd Hv Hj).
      destruct (Z.eqb_spec i j) as [->|N].
      - destruct (bool_decide (j ∈ concat gs)); cbn [negb]; [rewrite (rd_ok _ _ _ (Hq d j Hj)); cbn [bind]; rewrite Z.eqb_refl; cbn [negb]|]; rewrite Hvals; done.
      - rewrite bool_decide_eq_true_2 by (eapply Hin; [exact Hd|exact (proj1 Hj)|done]). cbn [negb]. rewrite (rd_ok _ _ _ (Hq d j Hj)). cbn [bind]. replace (i =? j) with false by lia. cbn [negb].
        destruct (Hcls i j d Hd (proj1 Hj)) as (c & c' & Hc & Hc' & Hal). destruct (cell_at cs _ _ i c Hsky Hc) as (o & H1 & H2 & Ho & Ho2 & P & R & EP & HP). destruct (cell_at cs _ _ j c' Hsky Hc') as (o' & H1' & _ & _ & _ & P' & R' & EP' & HP').
        rewrite (rd_ok _ _ _ H1), (rd_ok _ _ _ H2). cbn [bind]. rewrite (rd_ok (concat (pk <$> cs)) o c.1) by (rewrite EP, zlook_app_r, HP, Z.sub_diag by lia; done). cbn [bind].
        destruct (Hgood c) as ((k & Hk & _) & _); [by eapply zlook_elem|]. rewrite Hk. cbn [bind]. rewrite (rd_ok _ _ _ H1'). cbn [bind].
        assert (range (concat (pk <$> cs)) (o + 1) (o + 1 + zlen c.2) = Ok c.2) as E2. { rewrite EP, split_pk. pose proof (range_mid (P ++ [c.1]) c.2 R) as Hm. rewrite zlen_snoc1, HP in Hm. exact Hm. }
        assert (range (concat (pk <$> cs)) (o' + 1) (o' + (o + 1 + zlen c.2 - o)) = Ok c'.2) as E3. { rewrite EP', split_pk. pose proof (range_mid (P' ++ [c'.1]) c'.2 R') as Hm. rewrite zlen_snoc1, HP' in Hm. destruct Hal as [Hl _]. replace (o' + (o + 1 + zlen c.2 - o)) with (o' + 1 + zlen c'.2) by lia. exact Hm. }
        rewrite E3. cbn [bind]. rewrite E2. cbn [bind]. rewrite (Hvals c c' k Hc Hc' Hk). done. }
  cbn [bind]. rewrite initialised_ok. cbn [bind].
  (* revDesc *)
  set (ow := own 0 fss). assert (Hol : zlen ow = zlen r) by (unfold ow; rewrite own_len; fold cs; lia).
  set (own_of := fun t => owners 0 (reshape fss r) t). assert (Hown : forall t, own_of t = pick t (zip ow r)). { intros t. unfold own_of. apply owners_pick; [fold cs; lia|done]. }
  match goal with |- context [forZ 0 K ?B ?S0] => assert (W : wp (forZ 0 K B S0) (fun s => s.1 = (concat (own_of <$> seqZ 0 K), psums (zlen <$> (own_of <$> seqZ 0 K)))) False) end.
  { apply (wp_forZ (fun t s => s.1 = (concat (own_of <$> seqZ 0 t), psums (zlen <$> (own_of <$> seqZ 0 t))) /\ 0 <= s.2 /\ forall a h x v, gs @ a = Some h -> h @ 0 = Some x -> r @ x = Some v -> a < s.2 <-> v < t)).
    - done.
    - split; [done|]. split; [done|]. intros a h x v Ha _ Hv. apply zlook_Some_lt in Ha. cbn [snd]. apply zlook_elem, Hrv in Hv. lia.
    - intros t [[rD rDI] p] Ht (Es & Hp0 & Hpp). cbn [fst snd] in Es, Hp0, Hpp. injection Es as -> ->. destruct (first_pos_exists r t) as [x Hx]; [by apply Hrv|]. rewrite (rd_ok _ _ _ (Hq t x Hx)). cbn [bind].
      assert (Hxl : 0 <= x < zlen cs) by (destruct Hx as [Hx _]; apply zlook_Some_lt in Hx; lia). rewrite (rd_ok _ _ _ (HM x Hxl)). cbn [bind].
      set (acc := own_of <$> seqZ 0 t). rewrite (rd_ok (psums (zlen <$> acc)) _ (zsum (zlen <$> acc))); [|rewrite psums_len; replace (_ + 1 - 1) with (zlen (zlen <$> acc)) by lia; apply psums_end]. cbn [bind].
      assert (Eacc : own_of <$> seqZ 0 (t + 1) = acc ++ [own_of t]) by (rewrite seqZ_app by lia; rewrite fmap_app; done). rewrite Eacc, concat_snoc, fmap_app. change (zlen <$> [own_of t]) with [zlen (own_of t)]. rewrite psums_snoc_eq.
      destruct (bool_decide_reflect (x ∈ concat gs)) as [Hxg|Hxg]; cbn [negb].
      + apply elem_concat' in Hxg as (h & Hhg & Hxh). apply elem_of_zlook in Hhg as [a Ha].
        assert (Hhd : h @ 0 = Some x).
        { destruct (G4 h (zlook_elem _ _ _ Ha)) as [Hsl _]. destruct h as [|y h]; [by apply elem_of_nil in Hxh|]. assert (Hy : r @ y = Some t) by (apply (Hgr (y :: h) x y t (zlook_elem _ _ _ Ha) Hxh (proj1 Hx)); left). change ((y :: h) @ 0) with (Some y). f_equal. inversion Hsl as [|? ? _ Hfa]; subst. rewrite Forall_forall in Hfa. apply elem_of_cons in Hxh as [->|Hxh]; [done|]. specialize (Hfa x Hxh). destruct (Z.eq_dec y x); [done|]. exfalso. apply (proj2 Hx y); [lia|done]. }
        assert (Hap : a = p).
        { assert (p <= a). { destruct (Z.le_gt_cases p a); [done|]. assert (t < t); [|lia]. by apply (Hpp a h x t Ha Hhd (proj1 Hx)). }
          destruct (Z.eq_dec a p); [done|]. exfalso. destruct (zlook_lt gs p) as [h' Hh']; [apply zlook_Some_lt in Ha; lia|]. destruct (G4 h' (zlook_elem _ _ _ Hh')) as [Hsl' Hl2]. destruct h' as [|y h']; [rewrite zlen_nil in Hl2; lia|].
          assert (y < x) by (eapply (Hh p a); [lia|exact Hh'|exact Ha|done|done]). destruct (zlook_lt r y) as [v Hv]; [rewrite Hrl; eapply G2; [by eapply zlook_elem|left]|].
          assert (Hfy : first_pos r v y). { split; [done|]. intros k Hk Hkv. assert (k ∈ y :: h') as Hkin by (apply (Hgr (y :: h') y k v (zlook_elem _ _ _ Hh')); [left|done..]). inversion Hsl' as [|? ? _ Hfa]; subst. rewrite Forall_forall in Hfa. apply elem_of_cons in Hkin as [->|Hkin]; [lia|]. specialize (Hfa k Hkin). lia. }
          assert (v < t) by (eapply Hro; eassumption). assert (p < p); [|lia]. by apply (Hpp p (y :: h') y v Hh'). }
        subst a. destruct (sky_pack gs (concat gs) (psums (zlen <$> gs)) p h ltac:(apply skyline_psums) Ha) as (oa & ob & Hoa & Hob & Hoa0 & Hab & Hbl & Hsub). rewrite (rd_ok _ _ _ Hoa). cbn [bind]. rewrite (rd_ok _ _ _ Hob). cbn [bind].
        assert (ob = oa + zlen h) as ->. { rewrite Hsub. unfold sub. rewrite zlen_take, zlen_drop. lia. }
        assert (HF2 : Forall2 (fun x o => ow @ x = Some o) h (own_of t)).
        { rewrite Hown. apply pick_by; [done| |intros y; by apply (Hgr h x y t (zlook_elem _ _ _ Ha) Hxh (proj1 Hx))].
          destruct (G4 h (zlook_elem _ _ _ Ha)) as [Hsl _]. pose proof (G5 h (zlook_elem _ _ _ Ha)) as Hnd'. clear -Hsl Hnd'. induction Hsl as [|y h Hs IH Hf]; [constructor|]. apply NoDup_cons in Hnd' as [Hny Hnd']. constructor; [by apply IH|]. rewrite Forall_forall in *. intros z Hz. specialize (Hf z Hz). assert (y <> z) by (intros ->; done). lia. }
        rewrite (copy_loop _ _ _ _ _ _ Hoa0 Hbl (eq_sym Hsub) HF2). cbn [bind wp fst snd]. split; [|split; [lia|]].
        * f_equal. f_equal. f_equal. f_equal. pose proof (Forall2_length _ _ _ HF2). unfold zlen. lia.
        * intros b h' y v Hb Hy Hv. destruct (Z.eq_dec b p) as [->|N]; [assert (h' = h) as -> by congruence; assert (y = x) as -> by congruence; assert (v = t) as -> by (destruct Hx; congruence); lia|].
          specialize (Hpp b h' y v Hb Hy Hv). assert (v <> t); [|lia]. intros ->. apply N. apply (G3 b p h' h x Hb Ha); [|done]. apply (Hgr h' y x t (zlook_elem _ _ _ Hb)); [by eapply zlook_elem|done|exact (proj1 Hx)].
      + destruct (zlook_lt ow x) as [o Ho]; [lia|]. rewrite (rd_ok _ _ _ Ho). cbn [bind wp fst snd].
        assert (Hone : own_of t = [o]).
        { assert (HF2 : Forall2 (fun x o => ow @ x = Some o) [x] (own_of t)). { rewrite Hown. apply pick_by; [done|repeat constructor|]. intros y. rewrite elem_of_list_singleton. split; [intros ->; apply Hx|]. intros Hy. destruct (Z.eq_dec y x); [done|]. exfalso. apply Hxg. eapply Hin; [exact (proj1 Hx)|exact Hy|done]. }
          inversion HF2 as [|? o' ? l Ho' Hn]; subst. inversion Hn; subst. f_equal. congruence. }
        rewrite Hone. split; [done|]. split; [done|]. intros a h y v Ha Hy Hv. rewrite (Hpp a h y v Ha Hy Hv). assert (v <> t); [|lia]. intros ->. apply Hxg. apply elem_concat'. exists h. split; [by eapply zlook_elem|]. apply (Hgr h y x t); [by eapply zlook_elem|by eapply zlook_elem|done|exact (proj1 Hx)].
    - intros s (Es & _). done. }
  destruct (forZ 0 K _ _) as [[[rD rDI] p]| | |]; cbn in W; try done. injection W as -> ->. cbn [bind].
  exists m1, new, r, K, vals. split; [done|]. split; [done|]. split; [done|]. split; [done|]. split; [done|]. split; [done|]. split; [rewrite (picked_len _ _ _ Hnew); done|]. split; [done|]. split; [intros t i Hi; apply (picked_look cs q new t i Hnew); by apply Hq|]. done.
all: exact HF. Qed.
End Gen.
