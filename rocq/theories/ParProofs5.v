(** The statements on distributed data. *)
From Coq Require Import ZifyBool ZifyNat.
From Verif Require Import Base SearchSpec SkyModel SkySpec DecModel ParModel ParSpec ParProofs2 ParProofs3 ParProofs4.

Lemma slice_same N nb r x : 0 < N -> 0 <= nb -> 0 <= r < N -> lo_ N nb r <= x < hi_ N nb r <-> in_slice N nb r x.
Proof. intros HN Hnb Hr. unfold lo_, hi_, in_slice. rewrite Z.quot_div_nonneg by lia. destruct (Z.eqb_spec r (N - 1)); [replace (r <? N - 1) with false by lia|replace (r <? N - 1) with true by lia]; done. Qed.
Lemma equi_full world packs nb : 0 < zlen world -> 0 <= nb -> has_packs world packs ->
  exists out, equiRedistribute world nb = Ok out /\ zlen out = zlen world /\
    (forall r gids s, out @ r = Some (gids, s) -> enumerates (fun x => in_slice (zlen world) nb r x /\ held world x) gids /\
       exists qs, sky2 qs s /\ zlen qs = zlen gids /\ forall k x q, gids @ k = Some x -> qs @ k = Some q -> enumerates (in_pack world packs x) q) /\
    (forall x, 0 <= x < nb -> held world x -> exists! r, exists gids s, out @ r = Some (gids, s) /\ x ∈ gids).
Proof.
  intros HN Hnb [H1 H2]. destruct (equi_ok world packs nb HN Hnb H1 H2) as (out & Eo & Lo & Ho). exists out. split; [done|]. split; [done|].
  assert (He : forall r gids s, out @ r = Some (gids, s) -> enumerates (fun x => in_slice (zlen world) nb r x /\ held world x) gids).
  { intros r gids s Hr. pose proof (zlook_Some_lt _ _ _ Hr) as Br. destruct (Ho r _ Hr) as [[G1 G2] _]. cbn [fst] in *. split; [done|]. intros x. rewrite G2, slice_same by lia. done. }
  split.
  - intros r gids s Hr. split; [by eapply He|]. destruct (Ho r _ Hr) as [_ G]. exact G.
  - intros x Hx Hh. destruct (slice_owner (zlen world) nb x HN Hx) as (r & Hr & Bx). exists r. split.
    + destruct (zlook_lt out r) as [[g s] Hg]; [lia|]. exists g, s. split; [done|]. apply (He r g s Hg). split; [|done]. by apply slice_same.
    + intros r' (g & s & Hg & Hin). apply (He r' g s Hg) in Hin as [B _]. apply zlook_Some_lt in Hg. apply slice_same in B; [|lia..]. apply (slice_one (zlen world) nb x); [lia..|done|done].
Qed.
