(** What the checks of consistency establish. *)
From Coq Require Import QArith ZifyBool ZifyNat.
From stdpp Require Import gmap.
From Verif Require Import CellModel Base DataArray ArrLib FillLib SearchSpec SearchModel SearchProofs IndexSpec IndexModel CellTable CellProofs5 GlModel UmModel UmSpec UmProofs MgSpec GtModel GtSpec GtProofs GtProofs2.
Local Open Scope Z_scope.

Lemma chunks (t k : Z) : 0 < k -> forall (n : nat) (l : list Z), zlen l = Z.of_nat n * k -> exists cells : list cell, zlen cells = Z.of_nat n /\ (forall c, c ∈ cells -> c.1 = t /\ zlen c.2 = k) /\ l = concat (snd <$> cells).
Proof.
  intros Hk n. induction n as [|n IH]; intros l Hl.
  - exists []. split; [done|]. split; [intros c Hc; by apply elem_of_nil in Hc|]. destruct l; [done|]. rewrite zlen_cons in Hl. pose proof (zlen_nonneg l). lia.
  - destruct (IH (drop (Z.to_nat k) l)) as (cells & H1 & H2 & H3). { rewrite zlen_drop by lia. lia. } exists ((t, take (Z.to_nat k) l) :: cells). split; [rewrite zlen_cons; lia|]. split.
    + intros c [->|Hc]%elem_of_cons; [|by apply H2]. split; [done|]. cbn [snd]. rewrite zlen_take by lia. lia.
    + rewrite fmap_cons. cbn [concat snd]. rewrite <- H3. symmetry. apply take_drop.
Qed.
Lemma s_sound m nb : GetCellModel (cm_type (sg_cm m)) = Ok (sg_cm m) -> cm_dyn (sg_cm m) = false -> coords_of (sg_coords m) nb -> S_checkConsistency m = Ok tt -> exists cells, s_holds m cells /\ within nb cells.
Proof.
  intros H1 H2 Hd E. assert (Hk : 0 < cm_nbpts (sg_cm m)). { apply (s_k (SG (sg_cm m) None (Some [])) []). split; [done|]. split; [done|]. split; [intros c Hc; by apply elem_of_nil in Hc|done]. } pose proof E as E'. destruct Hd as (d & Ed & Hd). unfold S_checkConsistency in E. rewrite Ed in E. unfold S_checkConsistencyOfConnectivity in E. destruct (sg_conn m) as [c|] eqn:Ec; [|done]. set (k := cm_nbpts (sg_cm m)) in *. replace (k =? 0) with false in E by lia. cbn [ubif] in E. destruct (Z.rem (zlen c) k =? 0) eqn:Er; [|done].
  pose proof (zlen_nonneg c). destruct (chunks (cm_type (sg_cm m)) k Hk (Z.to_nat (Z.quot (zlen c) k)) c) as (cells & C1 & C2 & C3). { pose proof (Z.quot_rem' (zlen c) k). pose proof (Z.quot_pos (zlen c) k ltac:(lia) Hk). lia. }
  assert (Hh : s_holds m cells) by (split; [done|]; split; [done|]; split; [exact C2|]; by rewrite Ec, C3). exists cells. split; [done|]. destruct (s_consistency m cells nb Hh) as (_ & Hbad); [by exists d|]. intros x v Hx Hv. destruct (decide (0 <= v < nb)); [done|]. rewrite Hbad in E'; [done|]. intros Hw. by apply n, (Hw x).
Qed.
Lemma d_sound m nb : GetCellModel (cm_type (dg_cm m)) = Ok (dg_cm m) -> cm_dyn (dg_cm m) = true -> coords_of (dg_coords m) nb -> D_checkConsistency m (Ok tt) = Ok tt -> exists cells, d_holds m cells /\ within_sep nb cells.
Proof.
  intros H1 H2 Hd E. pose proof E as E'. pose proof Hd as (d & Ed & _). unfold D_checkConsistency, D_checkConsistencyLight in E. rewrite Ed in E. unfold D_checkConsistencyOfConnectivity in E. destruct (dg_conn m) as [c|] eqn:Ec; [|done]. destruct (dg_connI m) as [ci|] eqn:Ei; [|done].
  destruct (zlen ci <? 1) eqn:E1; [done|]. cbn [ifthrow] in E. destruct (zlook_lt ci 0) as [f Hf]; [lia|]. destruct (zlook_lt ci (zlen ci - 1)) as [ll Hll]; [lia|]. rewrite (rd_ok _ _ _ Hf), (rd_ok _ _ _ Hll) in E. cbn [bind] in E.
  destruct ((f <? 0) || _) eqn:E2; [done|]. cbn [ifthrow] in E. destruct ((ll <? 0) || _) eqn:E3; [done|]. cbn [ifthrow] in E. destruct (ll <? f) eqn:E4; [done|]. cbn [ifthrow] in E. destruct (zlen c <? ll) eqn:E5; [done|]. cbn [ifthrow] in E.
  destruct (isMonotonic_ok (vec ci) eq_refl eq_refl true) as (b & Eb & Hb). rewrite Eb in E. cbn [bind] in E. destruct b; [|done]. assert (Hm : nondecreasing ci) by (by apply Hb).
  assert (Hcell : forall i, 0 <= i < zlen ci - 1 -> exists a b, ci @ i = Some a /\ ci @ (i + 1) = Some b /\ 0 <= a /\ a <= b /\ b <= zlen c).
  { intros i Hi. destruct (zlook_lt ci i) as [a Ha]; [lia|]. destruct (zlook_lt ci (i + 1)) as [b Hb']; [lia|]. exists a, b. split; [done|]. split; [done|]. pose proof (Hm i (i + 1) a b ltac:(lia) Ha Hb'). assert (f <= a). { destruct (decide (i = 0)) as [->|]; [assert (a = f) by congruence; lia|]. apply (Hm 0 i); [lia|done|done]. } assert (b <= ll). { destruct (decide (i + 1 = zlen ci - 1)) as [Ex|]; [rewrite Ex in Hb'; assert (b = ll) by congruence; lia|]. apply (Hm (i + 1) (zlen ci - 1)); [lia|done|done]. } lia. }
  set (cells := (fun i => (cm_type (dg_cm m), sub c (default 0 (ci @ i)) (default 0 (ci @ (i + 1))))) <$> seqZ 0 (zlen ci - 1)).
  assert (Hh : d_holds m cells).
  { split; [done|]. split; [done|]. split; [intros x Hx; unfold cells in Hx; apply elem_of_list_fmap in Hx as (i & -> & _); done|]. exists c, ci, f. split; [done|]. split; [done|]. split; [unfold cells; rewrite zlen_fmap; unfold zlen at 2; rewrite seqZ_length; lia|]. split; [|split; [done|lia]].
    intros i x Hi. unfold cells in Hi. rewrite zlook_fmap in Hi. destruct (seqZ 0 (zlen ci - 1) @ i) as [j|] eqn:Ej; [|done]. apply zlook_Some_lt in Ej as Hj. rewrite zlook_to_nat in Ej by lia. apply lookup_seqZ in Ej as [-> Hjl]. cbn in Hi. injection Hi as <-. replace (0 + Z.of_nat (Z.to_nat i)) with i in * by lia. destruct (Hcell i) as (a & b & Ha & Hb' & B1 & B2 & B3); [lia|]. exists a, b. rewrite Ha, Hb'. done. }
  exists cells. split; [done|]. by apply (d_consistency_any m).
Qed.
