From Coq Require Import QArith ZifyBool ZifyNat.
From Verif Require Import CellModel Base DataArray ArrLib FillLib StdModel StdProofs IndexSpec IndexProofs2 IndexProofs3 IndexProofs4 SkyModel SkyProofs RenumModel RenumSpec RenumProofs RenumProofs2 PartSpec PartModel PartProofs4 CellTable UmModel UmSpec UmProofs UmProofs2 UmProofs3 UmProofs8 UmProofs9 UmProofs10 UcModel UcSpec UcProofs UcProofs2 UcProofs3 UcProofs4 UcProofs5 DsModel DsSpec DsProofs.
Local Open Scope Z_scope.

(** * Positions of a value *)
Fixpoint reshape {A} (fss : list (list A)) (r : list Z) : list (list Z) :=
  match fss with [] => [] | fs :: q => take (length fs) r :: reshape q (drop (length fs) r) end.
Lemma reshape_concat {A} (fss : list (list A)) r : zlen r = zlen (concat fss) -> concat (reshape fss r) = r.
Proof.
  revert r. induction fss as [|fs q IH]; intros r H; cbn [reshape concat] in *; [by destruct r as [|x r]; [|rewrite zlen_cons, zlen_nil in H; pose proof (zlen_nonneg r); lia]|].
  rewrite IH; [apply take_drop|]. rewrite zlen_app in H. unfold zlen in *. rewrite drop_length. lia.
Qed.
Lemma reshape_len {A} (fss : list (list A)) r : zlen r = zlen (concat fss) -> zlen <$> reshape fss r = zlen <$> fss.
Proof.
  revert r. induction fss as [|fs q IH]; intros r H; cbn [reshape concat] in *; [done|]. rewrite !fmap_cons. rewrite zlen_app in H. rewrite IH by (unfold zlen in *; rewrite drop_length; lia). f_equal. unfold zlen in *. rewrite take_length. lia.
Qed.
Lemma reshape_F2 {A} (R : A -> Z -> Prop) (fss : list (list A)) r : Forall2 R (concat fss) r -> Forall2 (Forall2 R) fss (reshape fss r).
Proof.
  revert r. induction fss as [|fs q IH]; intros r H; cbn [reshape concat] in *; [constructor|]. apply Forall2_app_inv_l in H as (r1 & r2 & H1 & H2 & ->). pose proof (Forall2_length _ _ _ H1) as Hl. constructor; [by rewrite take_app_alt|]. rewrite drop_app_alt by done. by apply IH.
Qed.
Lemma own_len k fss : zlen (own k fss) = zlen (concat fss).
Proof. revert k. induction fss as [|fs q IH]; intros k; cbn [own concat]; [done|]. rewrite !zlen_app, IH. unfold zlen. rewrite replicate_length. done. Qed.

Definition pick (t : Z) (l : list (Z * Z)) : list Z := fst <$> List.filter (fun p => p.2 =? t) l.
Lemma pick_app t a b : pick t (a ++ b) = pick t a ++ pick t b.
Proof. unfold pick. by rewrite List.filter_app, fmap_app. Qed.
Lemma pick_rep k t (l : list Z) : pick t (zip (replicate (length l) k) l) = replicate (count_occ Z.eq_dec l t) k.
Proof.
  induction l as [|x l IH]; [done|]. cbn [length replicate zip zip_with]. change (pick t ((k, x) :: zip (replicate (length l) k) l)) with (fst <$> (if x =? t then (k, x) :: List.filter (fun p => p.2 =? t) (zip (replicate (length l) k) l) else List.filter (fun p => p.2 =? t) (zip (replicate (length l) k) l))).
  cbn [count_occ]. destruct (Z.eqb_spec x t) as [->|N]; [rewrite fmap_cons; fold (pick t (zip (replicate (length l) k) l)); rewrite IH; destruct (Z.eq_dec t t); done|]. fold (pick t (zip (replicate (length l) k) l)). rewrite IH. destruct (Z.eq_dec x t); done.
Qed.
Lemma owners_pick {A} k (fss : list (list A)) r t : zlen r = zlen (concat fss) -> forall fss' : list (list cell), zlen <$> fss' = zlen <$> fss -> owners k (reshape fss r) t = pick t (zip (own k fss') r).
Proof.
  revert k r. induction fss as [|fs q IH]; intros k r H fss' E; destruct fss' as [|fs' q']; try done. rewrite !fmap_cons in E. injection E as E1 E2. cbn [reshape owners own concat] in *. rewrite zlen_app in H.
  rewrite (IH (k + 1) (drop (length fs) r)) with (fss' := q'); [|unfold zlen in *; rewrite drop_length; lia|done]. rewrite <- (take_drop (length fs) r) at 3. assert (length fs' = length fs) as -> by (unfold zlen in E1; lia).
  assert (Ht : length (take (length fs) r) = length fs) by (unfold zlen in H; rewrite take_length; lia). rewrite zip_with_app by (rewrite replicate_length; done). rewrite pick_app. f_equal. rewrite <- Ht at 2. by rewrite pick_rep.
Qed.
Lemma pick_ok (ow r : list Z) t : zlen ow = zlen r -> exists g, SS g /\ (forall x, x ∈ g <-> r @ x = Some t) /\ Forall2 (fun x o => ow @ x = Some o) g (pick t (zip ow r)).
Proof.
  revert ow. induction r as [|v r IH] using rev_ind; intros ow H.
  - exists []. split; [constructor|]. split; [intros x; rewrite zlook_nil; split; [intros Hx; by apply elem_of_nil in Hx|done]|]. destruct ow as [|o ow]; [constructor|rewrite zlen_cons, zlen_nil in H; pose proof (zlen_nonneg ow); lia].
  - rewrite zlen_app in H. change (zlen [v]) with 1 in H. destruct ow as [|o ow _] using rev_ind; [rewrite zlen_nil in H; pose proof (zlen_nonneg r); lia|]. rewrite zlen_app in H. change (zlen [o]) with 1 in H. assert (Hl : zlen ow = zlen r) by lia. destruct (IH ow Hl) as (g & Hs & Hg & HF).
    assert (HF' : Forall2 (fun x o0 => (ow ++ [o]) @ x = Some o0) g (pick t (zip ow r))). { eapply Forall2_impl; [exact HF|]. intros x y Hx. cbn in Hx. rewrite zlook_app_l; [done|]. apply zlook_Some_lt in Hx. lia. }
    assert (Hgl : forall x, x ∈ g -> 0 <= x < zlen r). { intros x Hx. apply Hg in Hx. by apply zlook_Some_lt in Hx. }
    rewrite zip_with_app by (unfold zlen in Hl; lia). rewrite pick_app. unfold pick at 2. cbn [zip_with List.filter snd]. destruct (Z.eqb_spec v t) as [->|N].
    + exists (g ++ [zlen r]). split; [|split].
      * clear -Hs Hgl. induction Hs as [|x g Hs IH Hf]; [repeat constructor|]. cbn [app]. constructor; [apply IH; intros; apply Hgl; by right|]. rewrite Forall_app. split; [done|]. constructor; [|done]. apply Hgl. left.
      * intros x. rewrite elem_of_app, elem_of_list_singleton, Hg. rewrite zlook_app. destruct (Z.ltb_spec x (zlen r)); [split; [intros [Hx| ->]; [done|lia]|auto]|]. split.
        -- intros [Hx| ->]; [apply zlook_Some_lt in Hx; lia|]. by rewrite Z.sub_diag.
        -- intros Hx. right. apply zlook_Some_lt in Hx. change (zlen [t]) with 1 in Hx. lia.
      * apply Forall2_app; [done|]. constructor; [|constructor]. cbn [fst]. rewrite <- Hl, zlook_app_r, Z.sub_diag by lia. done.
    + exists g. split; [done|]. split; [|by rewrite app_nil_r]. intros x. rewrite Hg. rewrite zlook_app. destruct (Z.ltb_spec x (zlen r)); [done|]. split; [intros Hx; apply zlook_Some_lt in Hx; lia|]. intros Hx. pose proof (zlook_Some_lt _ _ _ Hx) as L. change (zlen [v]) with 1 in L. replace (x - zlen r) with 0 in Hx by lia. injection Hx as ->. done.
Qed.
Lemma pick_by (ow r : list Z) t g : zlen ow = zlen r -> SS g -> (forall x, x ∈ g <-> r @ x = Some t) -> Forall2 (fun x o => ow @ x = Some o) g (pick t (zip ow r)).
Proof. intros H Hs Hg. destruct (pick_ok ow r t H) as (g' & Hs' & Hg' & HF). assert (g = g') as -> by (apply SS_ext; [done|done|]; intros x; by rewrite Hg, Hg'). done. Qed.

(** * Marks of the faces in a group *)
Lemma marks_loop (gs : list (list Z)) n : 0 <= n -> (forall x, x ∈ concat gs -> 0 <= x < n) ->
  exists F, forZ 0 (zlen gs) (fun w s =>
    let* a := rd (psums (zlen <$> gs)) w in let* b := rd (psums (zlen <$> gs)) (w + 1) in
    forZ a b (fun w2 s => let* c := rd (concat gs) w2 in wr s c true) s) (replicate (Z.to_nat n) false) = Ok F /\ zlen F = n /\ forall x, 0 <= x < n -> F @ x = Some (bool_decide (x ∈ concat gs)).
Proof.
  intros Hn Hx. destruct (psums_ok (zlen <$> gs)) as (_ & Hp). rewrite zlen_fmap in Hp. pose proof (zlen_nonneg gs).
  set (P := fun (j : Z) (F : list bool) => zlen F = n /\ forall x, 0 <= x < n -> F @ x = Some (bool_decide (x ∈ take (Z.to_nat j) (concat gs)))).
  match goal with |- exists F, forZ _ _ ?B ?S0 = _ /\ _ => assert (W : wp (forZ 0 (zlen gs) B S0) (P (zlen (concat gs))) False) end.
  2:{ apply wp_ok in W as (F & -> & HF & HF2). exists F. split; [done|]. split; [done|]. intros x Hx'. rewrite (HF2 x Hx'). rewrite take_ge by (unfold zlen; lia). done. }
  apply (wp_forZ (fun i F => P (zsum (take (Z.to_nat i) (zlen <$> gs))) F)).
  - lia.
  - split; [rewrite zlen_replicate; lia|]. intros x Hx'. rewrite zlook_replicate by lia. done.
  - intros i F Hi HF. rewrite (rd_ok _ _ _ (Hp i ltac:(lia))). cbn [bind]. rewrite (rd_ok _ _ _ (Hp (i + 1) ltac:(lia))). cbn [bind].
    destruct (zlook_lt gs i) as [g Hg]; [lia|]. pose proof (zlen_nonneg g).
    assert (E : zsum (take (Z.to_nat (i + 1)) (zlen <$> gs)) = zsum (take (Z.to_nat i) (zlen <$> gs)) + zlen g) by (apply zsum_take_succ; by rewrite zlook_fmap, Hg).
    assert (Hb : zsum (take (Z.to_nat (i + 1)) (zlen <$> gs)) <= zlen (concat gs)).
    { rewrite zlen_concat. rewrite <- (take_drop (Z.to_nat (i + 1)) (zlen <$> gs)) at 2. rewrite zsum_app. assert (0 <= zsum (drop (Z.to_nat (i + 1)) (zlen <$> gs))); [|lia]. rewrite <- fmap_drop, <- zlen_concat. apply zlen_nonneg. }
    assert (Ha : 0 <= zsum (take (Z.to_nat i) (zlen <$> gs))). { rewrite <- fmap_take, <- zlen_concat. apply zlen_nonneg. }
    rewrite E in *. apply (wp_forZ P); [lia|done| |done]. intros j F' Hj (HF1 & HF2). destruct (zlook_lt (concat gs) j) as [c Hc]; [lia|]. rewrite (rd_ok _ _ _ Hc). cbn [bind]. pose proof (Hx c (zlook_elem _ _ _ Hc)). rewrite wr_ok by lia. cbn [wp].
    split; [by rewrite zlen_zset|]. intros x Hx'. rewrite zlook_zset by lia. rewrite zlook_to_nat in Hc by lia. replace (Z.to_nat (j + 1)) with (S (Z.to_nat j)) by lia. rewrite (take_S_r _ _ _ Hc). destruct (Z.eqb_spec x c) as [->|N].
    + f_equal. symmetry. apply bool_decide_eq_true. apply elem_of_app. right. left.
    + rewrite (HF2 x Hx'). f_equal. apply bool_decide_ext. rewrite elem_of_app, elem_of_list_singleton. tauto.
  - intros F HF. rewrite take_ge in HF by (rewrite fmap_length; unfold zlen; lia). rewrite zlen_concat. done.
Qed.
Lemma bis_inverse r K : 0 <= K -> (forall v, v ∈ r <-> 0 <= v < K) -> exists q, invertArrayO2N2N2OBis (vec r) K = Ok (Some <$> q) /\ zlen q = K /\ forall t i, first_pos r t i -> q @ t = Some i.
Proof.
  intros HK Hv. destruct (invertO2NBis_ok r K HK) as (q & E & Hl & H1 & _). { intros v Hx. apply Hv in Hx. by right. }
  assert (Hq : exists q', q = Some <$> q').
  { assert (forall t, 0 <= t < K -> exists i, q @ t = Some (Some i)). { intros t Ht. destruct (first_pos_exists r t) as [i Hi]; [by apply Hv|]. exists i. by apply H1. }
    clear -H Hl. exists (default 0 <$> q). apply zlook_ext. intros t. rewrite !zlook_fmap. destruct (q @ t) as [x|] eqn:Ex; [|done]. destruct (H t) as [i Hi]; [apply zlook_Some_lt in Ex; lia|]. assert (x = Some i) as -> by congruence. done. }
  destruct Hq as [q' ->]. exists q'. split; [done|]. rewrite zlen_fmap in Hl. split; [done|]. intros t i Hli. assert (0 <= t < K) as Ht. { apply Hv. destruct Hli as [Hli _]. by eapply zlook_elem. }
  specialize (H1 t i Ht Hli). rewrite zlook_fmap in H1. destruct (q' @ t) as [x|]; cbn in H1; congruence.
Qed.
(** The reading of a range of the groups. *)
Lemma copy_loop (cc ow : list Z) a (g l : list Z) acc : 0 <= a -> a + zlen g <= zlen cc -> sub cc a (a + zlen g) = g -> Forall2 (fun x o => ow @ x = Some o) g l ->
  forZ a (a + zlen g) (fun j acc => let* x := rd cc j in let* c := rd ow x in Ok (acc ++ [c])) acc = Ok (acc ++ l).
Proof.
  intros Ha Hb Hsub HF. assert (W : wp (forZ a (a + zlen g) (fun j acc => let* x := rd cc j in let* c := rd ow x in Ok (acc ++ [c])) acc) (fun s => s = acc ++ l) False); [|apply wp_ok in W as (s & -> & ->); done].
  pose proof (zlen_nonneg g). assert (Hll : zlen l = zlen g) by (unfold zlen; f_equal; symmetry; by eapply Forall2_length).
  apply (wp_forZ (fun j s => s = acc ++ take (Z.to_nat (j - a)) l)); [lia|by rewrite Z.sub_diag, app_nil_r| |].
  - intros j s Hj ->. destruct (zlook_lt l (j - a)) as [o Ho]; [lia|]. destruct (zlook_lt g (j - a)) as [x Hx]; [lia|].
    assert (Hc : cc @ j = Some x). { rewrite <- Hsub in Hx. unfold sub in Hx. rewrite zlook_take in Hx by lia. rewrite zlook_drop in Hx by lia. rewrite <- Hx. f_equal. lia. }
    rewrite (rd_ok _ _ _ Hc). cbn [bind]. assert (Hox : ow @ x = Some o). { rewrite zlook_to_nat in Hx, Ho by lia. by apply (Forall2_lookup_lr _ _ _ _ _ _ HF Hx Ho). }
    rewrite (rd_ok _ _ _ Hox). cbn [bind wp]. rewrite <- app_assoc. f_equal. replace (Z.to_nat (j + 1 - a)) with (S (Z.to_nat (j - a))) by lia. rewrite zlook_to_nat in Ho by lia. by rewrite (take_S_r _ _ _ Ho).
  - intros s ->. replace (a + zlen g - a) with (zlen g) by lia. rewrite take_ge by (unfold zlen in *; lia). done.
Qed.
