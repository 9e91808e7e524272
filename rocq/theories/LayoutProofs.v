(** Proofs for C31 and for the selection of components. *)
From Verif Require Import Base DataArray ArrLib IndexSpec FillLib LayoutSpec LayoutModel.
From Coq Require Import ZifyBool ZifyNat.

Lemma flat_inj m a b i j : 0 <= b < m -> 0 <= j < m -> a * m + b = i * m + j -> a = i /\ b = j.
Proof. intros. assert (a = i) by nia. subst. lia. Qed.

Lemma wp_grid {A} (g : Z -> Z -> res A) (v : Z -> Z -> option A) n m size (T : Prop) : 0 <= n -> 0 <= m -> size = n * m ->
  (forall i j, 0 <= i < n -> 0 <= j < m -> exists x, v i j = Some x /\ g i j = Ok x) ->
  wp (forZ 0 n (fun i s => forZ 0 m (fun j '(w, ret) => let* x := g i j in let* ret := wrc ret w x in Ok (w + 1, ret)) s) (0, malloc A size))
    (fun '(_, ret) => exists r, ret = Some <$> r /\ holds r n m v) T.
Proof.
  intros Hn Hm -> Hg.
  set (P := fun (w : Z) '(w', ret) => w' = w /\ exists k, zlen k = w /\ ret = (Some <$> k) ++ malloc A (n * m - w) /\
    forall a b, 0 <= a -> 0 <= b < m -> a * m + b < w -> k @ (a * m + b) = v a b).
  apply (wp_forZ (fun i => P (i * m))); [done| | |].
  - simpl. split; [lia|]. exists []. split; [done|]. split; [rewrite Z.sub_0_r; done|]. intros; nia.
  - intros i s Hi HP. apply (wp_forZ (fun j => P (i * m + j))); [done|rewrite Z.add_0_r; done| |].
    + intros j [w ret] Hj [-> [k (Hk & -> & Hv)]]. destruct (Hg i j) as (x & Hx & ->); [done..|]. cbn [bind]. apply wp_bind. assert (i * m + j < n * m) by nia.
      apply wp_fill; [lia|lia|]. simpl. split; [lia|]. exists (k ++ [x]). rewrite zlen_app. change (zlen [x]) with 1. split; [lia|].
      split; [f_equal; f_equal; lia|]. intros a b Ha Hb Hab. destruct (Z.eqb_spec (a * m + b) (i * m + j)) as [E|E].
      * destruct (flat_inj m a b i j) as [-> ->]; [done..|]. rewrite Hx, <- Hk. rewrite zlook_app_r by lia. rewrite Z.sub_diag. done.
      * rewrite zlook_app_l by lia. apply Hv; lia.
    + intros s' H'. replace ((i + 1) * m) with (i * m + m) by lia. done.
  - intros [w ret] [-> [k (Hk & -> & Hv)]]. exists k. split; [apply fill_done; lia|]. split; [done|].
    intros i j Hi Hj. apply Hv; [lia|done|nia].
Qed.

Lemma wp_fillGrid {A} (src : list A) pos n m size (T : Prop) : 0 <= n -> 0 <= m -> size = n * m ->
  (forall i j, 0 <= i < n -> 0 <= j < m -> 0 <= pos i j < zlen src) ->
  wp (fillGrid src pos n m (malloc A size)) (fun ret => exists r, ret = Some <$> r /\ holds r n m (fun i j => src @ pos i j)) T.
Proof.
  intros Hn Hm Hs Hp. unfold fillGrid. eapply wp_bind'; [apply (wp_grid (fun i j => rd src (pos i j)) (fun i j => src @ pos i j)); try done|].
  - intros i j Hi Hj. destruct (zlook_lt src (pos i j)) as [x Hx]; [auto|]. exists x. split; [done|]. apply rd_ok. done.
  - intros [w ret] H. exact H.
Qed.

Section Inter.
  Context {A : Type}.
  Implicit Types d : da A.
  Lemma from_wp d : da_wf d -> wp (fromNoInterlace d)
    (fun ret => (da_alloc d = true /\ 1 <= da_nc d) /\ exists r, ret = Some <$> r /\ holds r (da_nt d) (da_nc d) (fun i j => da_vals d @ (j * da_nt d + i)))
    (unallocated d \/ da_nc d < 1).
  Proof.
    intros Hwf. destruct (da_wf_len d Hwf) as (Hl & Hn & Hc). unfold fromNoInterlace, checkAllocated.
    apply wp_ifthrow; [destruct (da_alloc d); [done|auto]|]. intros Ha. apply wp_ifthrow; [lia|]. intros Hnc.
    assert (Hq : Z.quot (zlen (da_vals d)) (da_nc d) = da_nt d) by (rewrite Hl, Z.quot_mul by lia; done). rewrite Hq.
    eapply (wp_mono _ _ _ False); [apply wp_fillGrid; try done|..].
    - intros i j Hi Hj. rewrite Hl. nia.
    - simpl. intros r Hr. split; [|done]. destruct (da_alloc d); [lia|done].
    - intros [].
  Qed.
  Lemma to_wp d : da_wf d -> wp (toNoInterlace d)
    (fun ret => (da_alloc d = true /\ 1 <= da_nc d) /\ exists r, ret = Some <$> r /\ holds r (da_nc d) (da_nt d) (fun i j => da_vals d @ (j * da_nc d + i)))
    (unallocated d \/ da_nc d < 1).
  Proof.
    intros Hwf. destruct (da_wf_len d Hwf) as (Hl & Hn & Hc). unfold toNoInterlace, checkAllocated.
    apply wp_ifthrow; [destruct (da_alloc d); [done|auto]|]. intros Ha. apply wp_ifthrow; [lia|]. intros Hnc.
    assert (Hq : Z.quot (zlen (da_vals d)) (da_nc d) = da_nt d) by (rewrite Hl, Z.quot_mul by lia; done). rewrite Hq.
    eapply (wp_mono _ _ _ False); [apply wp_fillGrid; try done|..].
    - lia.
    - intros i j Hi Hj. rewrite Hl. nia.
    - simpl. intros r Hr. split; [|done]. destruct (da_alloc d); [lia|done].
    - intros [].
  Qed.
  Lemma from_ok d : da_wf d -> da_alloc d = true -> 1 <= da_nc d ->
    exists r, fromNoInterlace d = Ok (Some <$> r) /\ holds r (da_nt d) (da_nc d) (fun i j => da_vals d @ (j * da_nt d + i)).
  Proof.
    intros Hwf Ha Hc. pose proof (from_wp d Hwf) as H. destruct (fromNoInterlace d) as [r| | |]; simpl in H; try done.
    - destruct H as (_ & r' & -> & H). eauto.
    - destruct H; [congruence|lia].
  Qed.
  Lemma to_ok d : da_wf d -> da_alloc d = true -> 1 <= da_nc d ->
    exists r, toNoInterlace d = Ok (Some <$> r) /\ holds r (da_nc d) (da_nt d) (fun i j => da_vals d @ (j * da_nc d + i)).
  Proof.
    intros Hwf Ha Hc. pose proof (to_wp d Hwf) as H. destruct (toNoInterlace d) as [r| | |]; simpl in H; try done.
    - destruct H as (_ & r' & -> & H). eauto.
    - destruct H; [congruence|lia].
  Qed.
  Lemma inter_throw d : da_wf d -> (fromNoInterlace d = Throw <-> unallocated d \/ da_nc d < 1) /\ (toNoInterlace d = Throw <-> unallocated d \/ da_nc d < 1).
  Proof.
    intros Hwf. split.
    - pose proof (from_wp d Hwf) as H. destruct (fromNoInterlace d) as [r| | |]; simpl in H; try done. split; [done|].
      destruct H as ((-> & ?) & _). intros [?|?]; [done|lia].
    - pose proof (to_wp d Hwf) as H. destruct (toNoInterlace d) as [r| | |]; simpl in H; try done. split; [done|].
      destruct H as ((-> & ?) & _). intros [?|?]; [done|lia].
  Qed.
  Lemma from_to d : da_wf d -> da_alloc d = true -> 1 <= da_nc d ->
    exists r, fromNoInterlace d = Ok (Some <$> r) /\ toNoInterlace (DA true (da_nc d) r) = Ok (Some <$> da_vals d).
  Proof.
    intros Hwf Ha Hc. destruct (da_wf_len d Hwf) as (Hl & Hn & _). destruct (from_ok d) as (r & Hr & Hlr & Hv); [done..|]. exists r. split; [done|].
    assert (Hnt : da_nt (DA true (da_nc d) r) = da_nt d) by (apply da_nt_mul; [lia|lia|done]).
    destruct (to_ok (DA true (da_nc d) r)) as (k & -> & Hlk & Hw); [|done|done|].
    { split; [simpl; lia|]. exists (da_nt d). split; [lia|]. done. }
    rewrite Hnt in *. cbn [da_nc da_vals] in *. do 2 f_equal. apply (flat_ext (da_nt d) (da_nc d)); [lia|lia|lia|].
    intros v j Hv' Hj. rewrite Hw by lia. apply Hv; lia.
  Qed.
  Lemma to_from d : da_wf d -> da_alloc d = true -> 1 <= da_nc d ->
    exists r, toNoInterlace d = Ok (Some <$> r) /\ fromNoInterlace (DA true (da_nc d) r) = Ok (Some <$> da_vals d).
  Proof.
    intros Hwf Ha Hc. destruct (da_wf_len d Hwf) as (Hl & Hn & _). destruct (to_ok d) as (r & Hr & Hlr & Hv); [done..|]. exists r. split; [done|].
    assert (Hnt : da_nt (DA true (da_nc d) r) = da_nt d) by (apply da_nt_mul; [lia|lia|lia]).
    destruct (from_ok (DA true (da_nc d) r)) as (k & -> & Hlk & Hw); [|done|done|].
    { split; [simpl; lia|]. exists (da_nt d). split; [lia|]. simpl. lia. }
    rewrite Hnt in *. cbn [da_nc da_vals] in *. do 2 f_equal. apply (flat_ext (da_nc d) (da_nt d)); [lia|lia|lia|].
    intros v j Hv' Hj. rewrite Hw by lia. apply Hv; lia.
  Qed.

  (** rearrange *)
  Lemma rearrange_wp d m : wp (rearrange d m)
    (fun r => (da_alloc d = true /\ 1 <= m /\ Z.rem (zlen (da_vals d)) m = 0 /\ Z.quot (zlen (da_vals d)) m <= 2 ^ 63 - 1) /\ r = DA true m (da_vals d))
    (unallocated d \/ m < 1 \/ (1 <= m /\ Z.rem (zlen (da_vals d)) m <> 0) \/ (1 <= m /\ 2 ^ 63 - 1 < Z.quot (zlen (da_vals d)) m)).
  Proof.
    unfold rearrange, checkAllocated. apply wp_ifthrow; [destruct (da_alloc d); [done|auto]|]. intros Ha.
    repeat (apply wp_ifthrow; [lia|]; intros ?). simpl. destruct (da_alloc d); [|done]. repeat split; lia.
  Qed.
  Lemma rearrange_ok d m : da_alloc d = true -> 1 <= m -> zlen (da_vals d) <= 2 ^ 63 - 1 -> (exists n, zlen (da_vals d) = n * m) ->
    rearrange d m = Ok (DA true m (da_vals d)) /\ da_wf (DA true m (da_vals d)) /\ da_nt (DA true m (da_vals d)) * m = zlen (da_vals d).
  Proof.
    intros Ha Hm Hmax [n Hn]. pose proof (zlen_nonneg (da_vals d)). assert (0 <= n) by nia.
    rewrite (da_nt_mul true m (da_vals d) n) by lia. split; [|split; [|lia]].
    - apply wp_ok_eq. eapply wp_mono; [apply rearrange_wp|simpl; tauto|]. intros [?|[?|[[_ Hx]|[_ Hx]]]].
      + congruence.
      + lia.
      + rewrite Hn, Z.rem_mul in Hx by lia. done.
      + rewrite Hn, Z.quot_mul in Hx by lia. nia.
    - split; [simpl; lia|]. exists n. done.
  Qed.
  Lemma rearrange_throw d m : zlen (da_vals d) <= 2 ^ 63 - 1 ->
    (rearrange d m = Throw <-> unallocated d \/ m < 1 \/ ~ exists n, zlen (da_vals d) = n * m).
  Proof.
    intros Hmax. pose proof (zlen_nonneg (da_vals d)) as Hpos. split.
    - pose proof (rearrange_wp d m) as H. intros E. rewrite E in H. simpl in H. destruct H as [?|[?|[[? H]|[? H]]]]; [auto..| |].
      + right; right. intros [n Hn]. rewrite Hn, Z.rem_mul in H by lia. done.
      + exfalso. assert (Z.quot (zlen (da_vals d)) m <= zlen (da_vals d)); [|lia]. rewrite Z.quot_div_nonneg by lia. apply Z.div_le_upper_bound; nia.
    - pose proof (rearrange_wp d m) as H. destruct (rearrange d m) as [r| | |]; simpl in H; try done.
      destruct H as ((? & ? & Hr & ?) & _). intros [?|[?|Hn]]; [congruence|lia|]. exfalso; apply Hn. exists (Z.quot (zlen (da_vals d)) m).
      pose proof (Z.quot_rem' (zlen (da_vals d)) m). lia.
  Qed.
  Lemma rearrange_undo d m r : da_wf d -> 1 <= da_nc d -> zlen (da_vals d) <= 2 ^ 63 - 1 -> rearrange d m = Ok r -> rearrange r (da_nc d) = Ok d.
  Proof.
    intros Hwf Hc Hmax Hr. destruct (da_wf_len d Hwf) as (Hl & Hn & _). pose proof (rearrange_wp d m) as H. rewrite Hr in H. simpl in H. destruct H as ((Ha & _) & ->).
    destruct (rearrange_ok (DA true m (da_vals d)) (da_nc d)) as [-> _]; [done|done|done|by exists (da_nt d)|]. simpl. f_equal. destruct d; simpl in *; subst; done.
  Qed.
  Lemma transpose_ok d : da_wf d -> da_alloc d = true -> 1 <= da_nt d -> 1 <= da_nc d -> zlen (da_vals d) <= 2 ^ 63 - 1 ->
    transpose d = Ok (DA true (da_nt d) (da_vals d)) /\ da_nt (DA true (da_nt d) (da_vals d)) = da_nc d /\ transpose (DA true (da_nt d) (da_vals d)) = Ok d.
  Proof.
    intros Hwf Ha Hn Hc Hmax. destruct (da_wf_len d Hwf) as (Hl & _ & _).
    assert (H1 : transpose d = Ok (DA true (da_nt d) (da_vals d))).
    { unfold transpose, checkAllocated. rewrite Ha. cbn [negb ifthrow]. apply rearrange_ok; [done..|]. exists (da_nc d). lia. }
    assert (H2 : da_nt (DA true (da_nt d) (da_vals d)) = da_nc d) by (apply da_nt_mul; lia).
    split; [done|]. split; [done|]. unfold transpose, checkAllocated. rewrite H2. cbn [da_alloc negb ifthrow].
    apply (rearrange_undo d (da_nt d)); [done..|]. unfold transpose, checkAllocated in H1. rewrite Ha in H1. done.
  Qed.
End Inter.
