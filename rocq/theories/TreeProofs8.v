From Coq Require Import QArith Qabs Lqa ZifyBool ZifyNat.
From Verif Require Import Base DataArray ArrLib RenumSpec RenumModel RenumProofs IndexSpec FillLib PartSpec PartModel PartProofs4 SkyModel SkyProofs
  TreeModel TreeModel2 TreeSpec TreeProofs TreeProofs2 TreeProofs3 TreeProofs4 TreeProofs5.
Local Open Scope Z_scope.

(** * getDifferentValues *)
Lemma different_ok d prec limit : da_alloc d = true -> da_wf d -> 1 <= da_nc d <= 4 -> limit <= 0 ->
  transitive_on (da_nt d) (fun i j => near (da_vals d) (da_nc d) i prec (da_vals d) j) ->
  exists l K, getDifferentValues d prec limit = Ok (DA true (da_nc d) (Some <$> l)) /\ 0 <= K /\ zlen l = K * da_nc d /\
    (forall t, 0 <= t < K -> exists i, 0 <= i < da_nt d /\ forall k, 0 <= k < da_nc d -> l @ (t * da_nc d + k) = da_vals d @ (i * da_nc d + k)) /\
    (forall i, 0 <= i < da_nt d -> exists t, 0 <= t < K /\ near (da_vals d) (da_nc d) i prec l t) /\
    (forall t t', 0 <= t < K -> 0 <= t' < K -> t <> t' -> ~ near l (da_nc d) t prec l t').
Proof.
  intros Ha Wd Hc Hlim Htr. pose proof (wf_points d Wd ltac:(lia)) as HP. destruct (common_ok d prec limit Ha Wd Hc) as (gs & c & cI & E & Hsky & _ & Hcl). destruct (Hcl Hlim Htr) as (Hnd & Hpair & Hhead).
  unfold getDifferentValues, checkAllocated. rewrite Ha, E. cbn [bind].
  assert (Hin : forall x, x ∈ concat gs -> 0 <= x < da_nt d).
  { intros x Hx. apply elem_of_list_In, in_concat in Hx as (g & Hg & Hx). apply elem_of_list_In in Hg, Hx. destruct (Hhead g Hg) as (h & rest & -> & Hne & Hlt).
    destruct rest as [|o os]; [done|]. assert (Hho : h <> o) by (specialize (Hlt o ltac:(set_solver)); lia).
    destruct (proj1 (Hpair h o Hho)) as (R1 & R2 & _); [exists (h :: o :: os); split; [done|]; split; [by left|right; by left]|]. apply elem_of_cons in Hx as [->|Hx]; [done|].
    assert (Hhx : h <> x) by (specialize (Hlt x Hx); lia). destruct (proj1 (Hpair h x Hhx)) as (_ & R3 & _); [exists (h :: o :: os); split; [done|]; split; [by left|by right]|]. done. }
  assert (Hh : forall p, p ∈ gs -> exists h, p @ 0 = Some h /\ 0 <= h < da_nt d /\ forall x, x ∈ p -> h <= x).
  { intros p Hp. destruct (Hhead p Hp) as (h & rest & -> & Hne & Hlt). exists h. split; [done|]. split.
    - apply Hin. apply elem_of_list_In, in_concat. exists (h :: rest). rewrite <- !elem_of_list_In. split; [done|by left].
    - intros x [->|Hx]%elem_of_cons; [lia|]. specialize (Hlt x Hx). lia. }
  destruct (o2n_conv_ok gs (da_nt d) ltac:(apply HP) (nodup_unique _ Hnd) Hh c cI Hsky Hin) as (r & K & Er & Hl & Heq & Hran & _).
  assert (HK : 0 <= K). { pose proof (o2n_wp gs (da_nt d) ltac:(apply HP) (nodup_unique _ Hnd) Hh c cI Hsky) as W. rewrite Er in W. cbn in W. destruct W as (r' & _ & (_ & _ & HK & _)). done. }
  rewrite Er. cbn [bind]. rewrite initialised_ok. cbn [bind].
  destruct (renumberAndReduce_ok d r K Ha Wd Hl HK) as (cells & Ec & Lc & Hlast & _).
  { intros v Hv. apply Hran in Hv. lia. }
  assert (Hsrc : forall t, 0 <= t < K -> exists i, last_pos r t i /\ 0 <= i < da_nt d).
  { intros t Ht. destruct (last_pos_exists r t) as [i Hi]; [by apply Hran|]. exists i. split; [done|]. destruct Hi as [Hi _]. apply zlook_Some_lt in Hi. lia. }
  assert (Hcell : forall t i, 0 <= t < K -> last_pos r t i -> 0 <= i < da_nt d -> forall k, 0 <= k < da_nc d -> cells @ (t * da_nc d + k) = Some <$> da_vals d @ (i * da_nc d + k)).
  { intros t i Ht Hi Hr k Hk. specialize (Hlast t i ltac:(lia) Hi k). unfold ij in Hlast. cbn [da_nc da_vals] in Hlast.
    replace ((0 <=? t) && (0 <=? k) && (k <? da_nc d)) with true in Hlast by lia. replace ((0 <=? i) && (0 <=? k) && (k <? da_nc d)) with true in Hlast by lia. done. }
  assert (Hall : exists l, cells = Some <$> l).
  { assert (HF : Forall (fun o : option Q => is_Some o) cells).
    { apply Forall_forall. intros o Ho. apply elem_of_zlook in Ho as [p Hp]. pose proof (zlook_Some_lt _ _ _ Hp) as Hlt.
      pose proof (Z.div_mod p (da_nc d) ltac:(lia)) as Hdm. pose proof (Z.mod_pos_bound p (da_nc d) ltac:(lia)) as Hmb.
      assert (Ht : 0 <= p / da_nc d < K). { split; [apply Z.div_pos; lia|]. apply Z.div_lt_upper_bound; lia. }
      destruct (Hsrc _ Ht) as (i & Hi & Hr). specialize (Hcell _ i Ht Hi Hr (p mod da_nc d) Hmb). replace (p / da_nc d * da_nc d + p mod da_nc d) with p in Hcell by lia.
      rewrite Hp in Hcell. destruct HP as (_ & _ & HL). destruct (zlook_lt (da_vals d) (i * da_nc d + p mod da_nc d)) as [y Hy]; [split; nia|]. rewrite Hy in Hcell. cbn in Hcell. injection Hcell as ->. by eexists. }
    clear -HF. induction cells as [|o cells IH]; [by exists []|]. apply Forall_cons in HF as [[x ->] HF]. destruct (IH HF) as [l ->]. by exists (x :: l). }
  destruct Hall as [l ->]. rewrite zlen_fmap in Lc.
  assert (Hcell' : forall t i, 0 <= t < K -> last_pos r t i -> 0 <= i < da_nt d -> forall k, 0 <= k < da_nc d -> l @ (t * da_nc d + k) = da_vals d @ (i * da_nc d + k)).
  { intros t i Ht Hi Hr k Hk. specialize (Hcell t i Ht Hi Hr k Hk). rewrite zlook_fmap in Hcell. destruct (l @ _), (da_vals d @ _); cbn in Hcell; congruence. }
  exists l, K. split; [done|]. split; [done|]. split; [done|].
  assert (Hat : forall t i, 0 <= t < K -> last_pos r t i -> 0 <= i < da_nt d -> forall k, 0 <= k < da_nc d -> at_ l (da_nc d) t k = at_ (da_vals d) (da_nc d) i k).
  { intros t i Ht Hi Hr k Hk. unfold at_. by rewrite (Hcell' t i). }
  split; [|split].
  - intros t Ht. destruct (Hsrc t Ht) as (i & Hi & Hr). exists i. split; [done|]. by apply Hcell'.
  - intros i Hi. destruct (zlook_lt r i ltac:(lia)) as [t Hti]. assert (Ht : 0 <= t < K) by (by apply Hran, (zlook_elem _ i)). destruct (Hsrc t Ht) as (j & Hj & Hr). exists t. split; [done|].
    assert (HN : near (da_vals d) (da_nc d) i prec (da_vals d) j).
    { destruct (decide (i = j)) as [->|Hne]; [apply near_refl|]. destruct (proj1 (Heq i j t t Hti (proj1 Hj)) eq_refl) as [?|(g & Hg & H1 & H2)]; [done|]. apply (Hpair i j Hne). by exists g. }
    intros k Hk. rewrite (Hat t j) by done. by apply HN.
  - intros t t' Ht Ht' Hne HN. destruct (Hsrc t Ht) as (i & Hi & Hr), (Hsrc t' Ht') as (j & Hj & Hr').
    assert (HN' : near (da_vals d) (da_nc d) i prec (da_vals d) j). { intros k Hk. specialize (HN k Hk). rewrite (Hat t i), (Hat t' j) in HN by done. done. }
    apply Hne. apply (Heq i j t t' (proj1 Hi) (proj1 Hj)). destruct (decide (i = j)) as [->|Hij]; [by left|]. right. destruct (proj2 (Hpair i j Hij)) as (g & Hg & H1 & H2); [done|]. by exists g.
Qed.
