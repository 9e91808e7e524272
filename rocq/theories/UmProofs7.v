From Coq Require Import QArith ZifyBool ZifyNat.
From stdpp Require Import gmap.
From Verif Require Import Base DataArray ArrLib FillLib IndexSpec CellTable UmModel UmSpec UmProofs UmProofs2 UmProofs3.
Local Open Scope Z_scope.

(** * A mesh built cell after cell *)
Lemma build_app m cells more : stores m cells -> typed m cells -> (forall c, c ∈ more -> insertable (um_dim m) c) ->
  exists m', foldM (fun m (c : cell) => insertNextCell m c.1 (zlen c.2) c.2) more m = Ok m' /\ stores m' (cells ++ more) /\ typed m' (cells ++ more) /\ um_dim m' = um_dim m /\ um_coords m' = um_coords m.
Proof.
  revert m cells. induction more as [|[t ns] more IH]; intros m cells Hs Ht Hi.
  - exists m. rewrite app_nil_r. done.
  - destruct (insert_ok m cells t ns Hs Ht (Hi _ (elem_of_list_here _ _))) as (m1 & E & Hs1 & Ht1 & Hd1 & Hc1). cbn [foldM fst snd]. rewrite E. cbn [bind].
    destruct (IH m1 (cells ++ [(t, ns)]) Hs1 Ht1) as (m2 & E2 & Hs2 & Ht2 & Hd2 & Hc2). { intros c Hc. rewrite Hd1. apply Hi. by right. }
    exists m2. rewrite <- app_assoc in *. split; [done|]. split; [done|]. split; [done|]. split; congruence.
Qed.
Lemma build_ok m n cells : 0 <= n -> (forall c, c ∈ cells -> insertable (um_dim m) c) ->
  exists m', (let* m := allocateCells m n in foldM (fun m (c : cell) => insertNextCell m c.1 (zlen c.2) c.2) cells m) = Ok m' /\ stores m' cells /\ typed m' cells /\ um_dim m' = um_dim m /\ um_coords m' = um_coords m.
Proof.
  intros Hn Hi. destruct (allocate_ok m n Hn) as (m1 & -> & Hs1 & Ht1 & Hd1 & Hc1). cbn [bind]. destruct (build_app m1 [] cells Hs1 Ht1) as (m2 & E2 & Hs2 & Ht2 & Hd2 & Hc2); [by rewrite Hd1|].
  exists m2. split; [done|]. split; [done|]. split; [done|]. split; congruence.
Qed.
