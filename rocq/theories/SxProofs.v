(** Proofs: cells cut into simplices. *)
From Coq Require Import QArith ZifyBool ZifyNat.
From Verif Require Import Base DataArray IndexSpec FillLib IndexProofs3 CellTable CellModel CellProofs UmModel UmSpec UmProofs UmProofs2 UmProofs10 TyModel TySpec TyProofs2 DgModel DgSpec DgProofs5 SxModel SxSpec.
Local Open Scope Z_scope.

Definition packed (cells : list cell) : list Z * list Z := (concat (pk <$> cells), psums (lens cells)).
Lemma push_ok cells t l : push (packed cells) (t :: l) = Ok (packed (cells ++ [(t, l)])).
Proof.
  unfold push, packed. cbn [fst snd]. pose proof (psums_end (lens cells)) as E. rewrite psums_len. replace (zlen (lens cells) + 1 - 1) with (zlen (lens cells)) by lia. rewrite (rd_ok _ _ _ E). cbn [bind].
  f_equal. f_equal; [rewrite fmap_app, concat_app; simpl; by rewrite app_nil_r|]. unfold lens. rewrite !fmap_app. cbn [fmap list_fmap]. rewrite psums_snoc_eq. done.
Qed.
Lemma push_pk cells (c : cell) : push (packed cells) (pk c) = Ok (packed (cells ++ [c])).
Proof. unfold pk. rewrite push_ok. by destruct c. Qed.

Section reading.
  Context (cells : list cell) (conn connI : list Z) (Hsky : skyline (pk <$> cells) conn connI).
  Lemma read_cell i (c : cell) : cells @ i = Some c -> exists a, rd connI i = Ok a /\ rd connI (i + 1) = Ok (a + 1 + zlen c.2) /\ rd conn a = Ok c.1 /\
    (forall k, k <= zlen c.2 -> 0 <= k -> rdn conn (a + 1) k = Ok (take (Z.to_nat k) c.2)) /\ rdn conn a (1 + zlen c.2) = Ok (pk c) /\ (forall k, 0 <= k < zlen c.2 -> conn @ (a + k + 1) = c.2 @ k) /\ 0 <= a /\ a + 1 + zlen c.2 <= zlen conn.
  Proof using Hsky.
    intros Hc. destruct (cell_at cells conn connI i c Hsky Hc) as (a & Ha & Hb & H0 & Hl & P & R & -> & HP). pose proof (zlen_nonneg c.2). exists a. split; [by apply rd_ok|]. split; [by apply rd_ok|].
    assert (forall k, 0 <= k -> (P ++ pk c ++ R) @ (a + k) = (pk c ++ R) @ k) as Hk by (intros k Hk; rewrite zlook_app_r by lia; by replace (a + k - zlen P) with k by lia).
    assert (Z.to_nat a = length P) as HnP by (unfold zlen in HP; lia).
    split; [apply rd_ok; replace a with (a + 0) by lia; by rewrite Hk|]. split; [|split; [|split; [|split; [lia|done]]]].
    - intros k Hk1 Hk2. unfold rdn, ubif, piece. replace ((a + 1 <? 0) || (zlen (P ++ pk c ++ R) <? a + 1 + k)) with false by lia. f_equal. replace (a + 1 + k - (a + 1)) with k by lia.
      replace (Z.to_nat (a + 1)) with (length P + 1)%nat by lia. rewrite <- drop_drop, drop_app. unfold pk. simpl drop. rewrite drop_0. apply take_app_le. unfold zlen in Hk1. lia.
    - unfold rdn, ubif, piece. replace ((a <? 0) || (zlen (P ++ pk c ++ R) <? a + (1 + zlen c.2))) with false by lia. f_equal. replace (a + (1 + zlen c.2) - a) with (1 + zlen c.2) by lia. rewrite HnP, drop_app.
      replace (Z.to_nat (1 + zlen c.2)) with (length (pk c)) by (unfold pk, zlen; simpl; lia). apply take_app.
    - intros k Hkk. replace (a + k + 1) with (a + (k + 1)) by lia. rewrite Hk by lia. unfold pk. simpl app. rewrite zlook_cons. destruct (Z.eqb_spec (k + 1) 0); [lia|]. replace (k + 1 - 1) with k by lia. rewrite zlook_app_l by lia. done.
  Qed.
End reading.

Lemma sources_snoc css cs : sources (css ++ [cs]) = sources css ++ ((fun _ => zlen css) <$> cs).
Proof.
  unfold sources. pose proof (zlen_nonneg css). rewrite zlen_app. change (zlen [cs]) with 1. rewrite seqZ_app by lia. rewrite Z.add_0_l. assert (seqZ (zlen css) 1 = [zlen css]) as -> by (rewrite seqZ_cons by lia; done).
  rewrite zip_with_app by (rewrite seqZ_length; unfold zlen; lia). rewrite concat_app. simpl. by rewrite app_nil_r.
Qed.
Lemma sources_single (cells : list cell) : sources ((fun c => [c]) <$> cells) = seqZ 0 (zlen cells).
Proof.
  induction cells as [|c cells IH] using rev_ind; [done|]. rewrite fmap_app. cbn [fmap list_fmap]. rewrite sources_snoc, IH, zlen_fmap, zlen_app. change (zlen [c]) with 1. pose proof (zlen_nonneg cells). rewrite seqZ_app by lia. f_equal.
Qed.

Section cut.
  Context (cut simplex size more moreConn : Z) (places : list (list Z)).
  Context (Hpl : forall p, p ∈ places -> forall i, i ∈ p -> 0 <= i < size) (Hmore : zlen places = 1 + more) (Hconn : zsum ((fun p => 1 + zlen p) <$> places) = 1 + size + moreConn).
  Definition outOf (c : cell) : list cell := if c.1 =? cut then (fun p => (simplex, chosen c.2 p)) <$> places else [c].
  Lemma chosen_at (l p : list Z) : (forall i, i ∈ p -> 0 <= i < zlen l) -> chosen l p = at_ l <$> p.
  Proof using.
    induction p as [|i p IH]; intros Hp; [done|]. unfold chosen. cbn [omap list_omap]. destruct (zlook_lt l i) as [x Hx]; [apply Hp; left|]. rewrite Hx. rewrite fmap_cons. f_equal; [unfold at_; by rewrite Hx|]. apply IH. intros j Hj. apply Hp. by right.
  Qed.
  Lemma sizes_ok (cells : list cell) : (forall c, c ∈ cells -> c.1 = cut -> zlen c.2 = size) ->
    zlen (concat (pk <$> concat (outOf <$> cells))) = zlen (concat (pk <$> cells)) + moreConn * number (kinds cells) cut /\ zlen (concat (outOf <$> cells)) = zlen cells + more * number (kinds cells) cut /\ zlen (sources (outOf <$> cells)) = zlen (concat (outOf <$> cells)).
  Proof using Hmore Hconn Hpl.
    induction cells as [|c cells IH] using rev_ind; intros Hs.
    { unfold number. simpl. rewrite !Z.mul_0_r. done. }
    destruct IH as (H1 & H2 & H3); [intros; apply Hs; set_solver|]. unfold kinds. rewrite !fmap_app. cbn [fmap list_fmap]. fold (kinds cells). rewrite sources_snoc, !concat_app, !fmap_app, !concat_app, !zlen_app, H1, H2, H3, number_snoc. cbn [fmap list_fmap concat]. rewrite !app_nil_r, zlen_fmap.
    assert (zlen (concat (pk <$> outOf c)) = zlen (pk c) + moreConn * (if c.1 =? cut then 1 else 0) /\ zlen (outOf c) = 1 + more * (if c.1 =? cut then 1 else 0)) as [-> ->]; [|change (zlen [c]) with 1; change (@zlen (Z * list Z) [c]) with 1; lia].
    unfold outOf. destruct (Z.eqb_spec c.1 cut) as [E|E]; [|cbn [fmap list_fmap concat]; rewrite app_nil_r; split; [lia|unfold zlen; cbn [length]; lia]]. rewrite zlen_fmap. split; [|lia].
    assert (zlen c.2 = size) as Hsz by (apply Hs; [set_solver|done]). unfold pk at 2. rewrite zlen_cons, Hsz.
    enough (forall ps, (forall p, p ∈ ps -> forall i, i ∈ p -> 0 <= i < size) -> zlen (concat (pk <$> ((fun p => (simplex, chosen c.2 p)) <$> ps))) = zsum ((fun p => 1 + zlen p) <$> ps)) as -> by (done || lia).
    induction ps as [|p ps IHp]; intros Hp; [done|]. rewrite !fmap_cons. cbn [concat]. rewrite zlen_app, IHp by set_solver. unfold pk at 1. cbn [fst snd]. rewrite zlen_cons, chosen_at, zlen_fmap by (rewrite Hsz; intros i Hi; eapply Hp; [left|done]). match goal with |- _ = zsum (?a :: ?b) => change (zsum (a :: b)) with (a + zsum b) end. lia.
  Qed.

  Lemma cut_ok m dim cells : um_dim m = dim -> stores m cells -> typed m cells -> (forall c, c ∈ cells -> c.1 = cut -> zlen c.2 = size) ->
    exists m', simplexizeCells m dim cut simplex places more moreConn = Ok (m', sources (outOf <$> cells)) /\ stores m' (concat (outOf <$> cells)) /\ typed m' (concat (outOf <$> cells)) /\ um_dim m' = um_dim m /\ um_coords m' = um_coords m.
  Proof using Hmore Hconn Hpl.
    intros Hdim Hst Hty Hs. destruct (stores_get m cells Hst) as (conn & connI & Ec & EI & Hsky & HN). unfold simplexizeCells, checkConnectivityFullyDefined. rewrite Ec, EI. unfold ifthrow. rewrite Hdim, Z.eqb_refl. cbn [negb].
    rewrite (numCells_ok m cells Hst), (count_ok m cells cut Hst). cbn [bind]. pose proof (zlen_nonneg cells) as Hnn. destruct (sizes_ok cells Hs) as (S1 & S2 & S3).
    destruct (Z.eqb_spec (number (kinds cells) cut) 0) as [E0|E0].
    { rewrite E0, Z.mul_0_r, Z.add_0_r. assert (outOf <$> cells = (fun c => [c]) <$> cells) as ->.
      { apply Forall_fmap_ext_1, Forall_forall. intros c Hc. unfold outOf. destruct (Z.eqb_spec c.1 cut) as [E|E]; [|done]. exfalso. unfold number in E0. assert (count_occ Z.eq_dec (kinds cells) cut = 0%nat) as Hco by lia.
        apply count_occ_not_In in Hco. apply Hco. apply elem_of_list_In. rewrite <- E. unfold kinds. apply elem_of_list_fmap. by exists c. }
      rewrite sources_single. assert (concat ((fun c => [c]) <$> cells) = cells) as -> by (clear; induction cells; [done|]; simpl; by f_equal). exists m. rewrite Hdim. done. }
    match goal with |- context [forZ 0 (zlen cells) ?f ?s0] => assert (wp (forZ 0 (zlen cells) f s0) (fun s => s = (packed (concat (outOf <$> cells)), sources (outOf <$> cells))) False) as HW end.
    { apply (wp_forZ (fun i s => s = (packed (concat (outOf <$> take (Z.to_nat i) cells)), sources (outOf <$> take (Z.to_nat i) cells)))); [done|done| |].
      - intros i s Hi ->. destruct (zlook_lt cells i Hi) as [c Hc]. destruct (read_cell cells conn connI Hsky i c Hc) as (a & Ha & Hb & Ht & Hn & Hp & Hk & H0 & Hl). rewrite Ha. cbn [bind]. rewrite Ht. cbn [bind]. rewrite (take_snoc_z cells i c Hc), fmap_app. cbn [fmap list_fmap]. rewrite sources_snoc, concat_app. cbn [concat]. rewrite app_nil_r.
        assert (zlen (outOf <$> take (Z.to_nat i) cells) = i) as -> by (rewrite zlen_fmap, zlen_take; lia).
        set (outs := concat (outOf <$> take (Z.to_nat i) cells)). set (src := sources (outOf <$> take (Z.to_nat i) cells)). unfold outOf. destruct (Z.eqb_spec c.1 cut) as [E|E].
        + assert (zlen c.2 = size) as Hsz by (apply Hs; [by eapply zlook_elem|done]).
          enough (forall ps o r, (forall p, p ∈ ps -> forall i, i ∈ p -> 0 <= i < size) -> foldM (fun '(s, ret) p => let* l := reads conn ((fun k => a + k + 1) <$> p) in let* s := push s (simplex :: l) in Ok (s, ret ++ [i])) ps (packed o, r) =
            Ok (packed (o ++ ((fun p => (simplex, chosen c.2 p)) <$> ps)), r ++ ((fun _ => i) <$> ((fun p => (simplex, chosen c.2 p)) <$> ps)))) as -> by done.
          induction ps as [|p ps IHp]; intros o r Hps; [cbn; by rewrite !app_nil_r|]. cbn [foldM]. rewrite reads_ok.
          2:{ apply Forall_forall. intros x Hx. apply elem_of_list_fmap in Hx as (y & -> & Hy). specialize (Hps p ltac:(left) y Hy). lia. }
          cbn [bind]. assert (at_ conn <$> ((fun k => a + k + 1) <$> p) = chosen c.2 p) as ->.
          { rewrite chosen_at by (rewrite Hsz; apply Hps; left). rewrite <- list_fmap_compose. apply Forall_fmap_ext_1, Forall_forall. intros y Hy. unfold compose, at_. rewrite Hk; [done|]. rewrite Hsz. eapply Hps; [left|done]. }
          rewrite push_ok. cbn [bind]. rewrite IHp by set_solver. rewrite !fmap_cons, <- !app_assoc. done.
        + rewrite Hb. cbn [bind]. replace (a + 1 + zlen c.2 - a) with (1 + zlen c.2) by lia. rewrite Hp. cbn [bind]. rewrite push_pk. cbn [bind]. done.
      - intros s ->. rewrite take_ge by (unfold zlen; lia). done. }
    apply wp_ok in HW as (s & -> & ->). cbn [bind packed]. unfold packed. cbv iota beta. destruct Hsky as [Econn HI]. rewrite psums_len, lens_len, S1, S2, S3, S2, <- Econn. unfold ubif.
    replace (zlen conn + moreConn * number (kinds cells) cut =? zlen conn + moreConn * number (kinds cells) cut) with true by lia. replace (zlen cells + more * number (kinds cells) cut + 1 =? zlen cells + more * number (kinds cells) cut + 1) with true by lia.
    replace (zlen cells + more * number (kinds cells) cut =? zlen cells + more * number (kinds cells) cut) with true by lia. cbn [negb orb].
    destruct (setConn_ok m (concat (outOf <$> cells))) as (m' & -> & H1 & H2 & H3 & H4). cbn [bind]. exists m'. rewrite <- Hdim. done.
  Qed.
End cut.
