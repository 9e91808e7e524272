From Verif Require Import Base ArrLib GlModel GlProofs2 SerModel DtModel DtSpec IndexProofs4 TreeProofs TreeProofs9 DtProofs DtProofs2.
From Coq Require Import QArith Qabs Lqa ZifyBool ZifyNat.
Local Open Scope Z_scope.

Lemma holds_bounds e tm s : holds e tm s -> (startTime s - e < tm)%Q /\ (tm < endTime s + e)%Q.
Proof. destruct s; cbn [holds startTime endTime]; [rewrite abs_lt; lra|done..]. Qed.
Lemma apart_cons e s sl : apart e (s :: sl) -> apart e sl.
Proof.
  intros H i j x y Hx Hy Hij. pose proof (zlook_Some_lt _ _ _ Hx). apply (H (i + 1) (j + 1)); [..|lia]; rewrite zlook_cons.
  - destruct (Z.eqb_spec (i + 1) 0); [lia|]. by replace (i + 1 - 1) with i by lia.
  - destruct (Z.eqb_spec (j + 1) 0); [lia|]. by replace (j + 1 - 1) with j by lia.
Qed.
Lemma holding_none e tm sl c : holding e tm sl c -> (forall s, s ∈ sl -> ~ holds e tm s) -> c = [].
Proof. intros H HN. destruct c as [|s c]; [done|]. destruct (holding_elem _ _ _ _ s H) as [H1 H2]; [left|]. by apply HN in H1. Qed.
Lemma two_at_most e tm sl c : apart e sl -> holding e tm sl c -> zlen c <= 2.
Proof.
  intros HA H. induction H as [|s sl c H1 H2 IH|s sl c H1 H2 IH]; [unfold zlen; cbn; lia| |apply IH; by apply apart_cons in HA].
  assert (HN : forall j s', sl @ j = Some s' -> 1 <= j -> ~ holds e tm s').
  { intros j s' Hj Hj1 Hs'. apply holds_bounds in H1, Hs'. specialize (HA 0 (j + 1) s s' eq_refl). rewrite zlook_cons in HA.
    destruct (Z.eqb_spec (j + 1) 0) as [E|E]; [lia|]. replace (j + 1 - 1) with j in HA by lia. specialize (HA Hj ltac:(lia)). lra. }
  assert (HT : forall x sl' c', sl = x :: sl' -> holding e tm sl' c' -> c' = []).
  { intros x sl' c' -> Hc'. apply (holding_none e tm sl' c' Hc'). intros s' Hs'. apply elem_of_zlook in Hs' as (j & Hj). pose proof (zlook_Some_lt _ _ _ Hj).
    apply (HN (j + 1)); [|lia]. rewrite zlook_cons. destruct (Z.eqb_spec (j + 1) 0); [lia|]. by replace (j + 1 - 1) with j by lia. }
  rewrite zlen_cons. clear IH. destruct H2 as [|x sl' c' H3 H4|x sl' c' H3 H4].
  - unfold zlen; cbn; lia.
  - rewrite (HT x sl' c' eq_refl H4). unfold zlen; cbn; lia.
  - rewrite (HT x sl' c' eq_refl H4). unfold zlen; cbn; lia.
Qed.

(** hot spots *)
Lemma half x y : ((x + y) / 2 == x * (1#2) + y * (1#2))%Q.
Proof. unfold Qdiv. change (/ 2)%Q with (1#2)%Q. ring. Qed.
Lemma hot_within s h : (startTime s <= endTime s)%Q -> hot s h -> (startTime s <= h)%Q /\ (h <= endTime s)%Q.
Proof. intros Hf H. destruct H; cbn [startTime endTime] in *; rewrite ?half; lra. Qed.
Lemma hot_holds e s h : (0 < e)%Q -> (startTime s <= endTime s)%Q -> hot s h -> holds e h s.
Proof.
  intros He Hf H. pose proof (hot_within _ _ Hf H) as HW. destruct s; cbn [holds startTime endTime] in *; [apply abs_lt; lra|lra|lra].
Qed.
Lemma hot_iff s h : h ∈ sliceHotSpots s <-> hot s h.
Proof.
  destruct s; cbn [sliceHotSpots]; rewrite ?elem_of_cons, elem_of_nil; split.
  - intros [->|[]]; constructor. - inversion 1; subst; by left.
  - intros [->|[]]; constructor. - inversion 1; subst; by left.
  - intros [->|[->|[]]]; constructor. - inversion 1; subst; [by left|by right; left].
Qed.
Lemma hot_answered e sl s h : (0 < e)%Q -> forward sl -> ascending e sl -> apart e sl -> s ∈ sl -> hot s h ->
  exists r, getIdsOnTime (DT (Some e) sl) h = Ok r.
Proof.
  intros He HF HU HA Hs Hh. destruct (holding_total e h sl) as [c Hc].
  apply elem_of_zlook in Hs as (i & Hi). pose proof (HF _ _ Hi) as Hi'. pose proof (hot_within _ _ Hi' Hh) as HW.
  destruct (ids_run e sl h c Hc) as [(rs & _ & _ & R)|(R & _)]; [by exists rs|]. exfalso. destruct R as [->|[R|(s' & Hs' & R)]].
  - assert (HX : s ∈ []); [|inversion HX]. apply (holding_in e h sl); [done|by apply elem_of_zlook; exists i|by apply hot_holds].
  - pose proof (two_at_most e h sl c HA Hc). lia.
  - destruct (holding_elem _ _ _ _ _ Hc Hs') as [Hin Ht]. apply elem_of_zlook in Hin as (j & Hj). pose proof (HF _ _ Hj) as Hj'. pose proof (holds_bounds _ _ _ Ht) as HB.
    destruct s' as [m a f t|m a f t0 t1|m a b f t0 t1]; [by apply (R (m, a, 0, f)); constructor..|]. cbn [startTime endTime] in *.
    assert (HN : (Qabs (h - t0) < e)%Q \/ (Qabs (h - t1) < e)%Q).
    { rewrite !abs_lt. destruct (Z.lt_trichotomy i j) as [L|[->|L]].
      - left. assert (endTime s - e < t0)%Q; [|lra]. destruct (decide (j = i + 1)) as [->|N]; [by destruct (HU _ _ _ Hi Hj)|].
        specialize (HA i j _ _ Hi Hj ltac:(lia)). cbn [startTime] in HA. lra.
      - rewrite Hi in Hj. injection Hj as ->. inversion Hh; subst; [left|right]; lra.
      - right. assert (t1 - e < startTime s)%Q; [|lra]. destruct (decide (i = j + 1)) as [->|N]; [by destruct (HU _ _ _ Hj Hi)|].
        specialize (HA j i _ _ Hj Hi ltac:(lia)). cbn [endTime] in HA. lra. }
    destruct (Qlt_le_dec (Qabs (h - t0)) e) as [HL|HL]; [by apply (R (m, a, 0, f)); constructor|]. destruct HN as [HN|HN]; [lra|].
    by apply (R (m, b, 1, f)); constructor.
Qed.

Definition hotStep (e : Q) (ret : list Q) (s : slice) : list Q :=
  match last ret, sliceHotSpots s with
  | Some b, f :: r => if Qltb e (Qabs (b - f)) then ret ++ f :: r else ret ++ r
  | _, tmp => ret ++ tmp
  end.
Lemma hot_run e sl : getHotSpotsTime (DT (Some e) sl) = Ok (foldl (hotStep e) [] sl).
Proof.
  unfold getHotSpotsTime. cbn [d_slices]. apply foldM_foldl. intros s ret _. unfold hotStep. cbn [epsOf d_eps].
  destruct ret as [|b ret _] using rev_ind; [done|]. rewrite last_snoc, zlen_app. change (zlen [b]) with 1.
  replace (zlen ret + 1 =? 0) with false by (pose proof (zlen_nonneg ret); lia). cbn [negb].
  rewrite (rd_ok _ _ b) by (replace (zlen ret + 1 - 1) with (zlen ret) by lia; rewrite zlook_app_r, Z.sub_diag by lia; done). cbn [bind].
  destruct (sliceHotSpots s) as [|f r] eqn:E; [by destruct s|]. cbn [rd]. rewrite (rd_ok _ 0 f) by done. cbn [bind drop].
  by destruct (Qltb e (Qabs (b - f))).
Qed.
Lemma hot_front s : exists f r, sliceHotSpots s = f :: r.
Proof. destruct s; cbn [sliceHotSpots]; eauto. Qed.
Lemma step_some e ret s : ret <> [] -> hotStep e ret s <> [].
Proof.
  intros Hr. unfold hotStep. destruct (hot_front s) as (f & r & ->). destruct (last ret); [|by intros [? _]%app_eq_nil].
  destruct (Qltb _ _); by intros [? _]%app_eq_nil.
Qed.
Lemma hot_listed e sl : forall h, h ∈ foldl (hotStep e) [] sl -> exists s, s ∈ sl /\ hot s h.
Proof.
  induction sl as [|s sl IH] using rev_ind; intros h Hh; [inversion Hh|]. rewrite foldl_app in Hh. cbn [foldl] in Hh.
  set (ret := foldl (hotStep e) [] sl) in *. assert (HX : h ∈ ret \/ h ∈ sliceHotSpots s).
  { unfold hotStep in Hh. destruct (last ret) as [b|].
    - destruct (sliceHotSpots s) as [|f r]; [apply elem_of_app in Hh; tauto|]. destruct (Qltb e _); apply elem_of_app in Hh as [Hh|Hh]; auto. right. by right.
    - destruct (sliceHotSpots s) as [|f r]; apply elem_of_app in Hh; tauto. }
  destruct HX as [HX|HX].
  - destruct (IH h HX) as (s' & H1 & H2). exists s'. split; [apply elem_of_app; by left|done].
  - exists s. split; [apply elem_of_app; right; left|by apply hot_iff].
Qed.
Lemma hot_covered e sl : (0 <= e)%Q -> forall s h, s ∈ sl -> hot s h -> exists r, r ∈ foldl (hotStep e) [] sl /\ (Qabs (r - h) <= e)%Q.
Proof.
  intros He. induction sl as [|s sl IH] using rev_ind; intros s' h Hs' Hh; [inversion Hs'|]. rewrite foldl_app. cbn [foldl].
  set (ret := foldl (hotStep e) [] sl) in *.
  assert (HM : forall x, x ∈ ret -> x ∈ hotStep e ret s).
  { intros x Hx. unfold hotStep. destruct (last ret); destruct (sliceHotSpots s); try destruct (Qltb e _); apply elem_of_app; by left. }
  assert (H0 : forall x, (Qabs (x - x) <= e)%Q). { intros x. apply abs_le. lra. }
  apply elem_of_app in Hs' as [Hs'|Hs'].
  - destruct (IH s' h Hs' Hh) as (r & H1 & H2). exists r. auto.
  - apply elem_of_list_singleton in Hs' as ->. apply hot_iff in Hh. unfold hotStep. destruct (last ret) as [b|] eqn:EL.
    + destruct (sliceHotSpots s) as [|f r]; [inversion Hh|]. destruct (Qltb e (Qabs (b - f))) eqn:EQ.
      * exists h. split; [apply elem_of_app; by right|done].
      * apply elem_of_cons in Hh as [->|Hh].
        -- exists b. split; [apply elem_of_app; left; by apply last_Some_elem_of|by apply Qltb_no].
        -- exists h. split; [apply elem_of_app; by right|done].
    + exists h. split; [destruct (sliceHotSpots s); apply elem_of_app; by right|done].
Qed.
