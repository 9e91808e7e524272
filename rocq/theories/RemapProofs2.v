(** Proofs about the remapper: the products. *)
From Coq Require Import QArith Qcanon ZifyBool ZifyNat.
From Verif Require Import Base RemapModel RemapSpec RemapProofs.
Local Open Scope Z_scope.

Lemma zlook_set {A} (l : list A) i k x : 0 <= i < zlen l -> (zset l i x) @ k = if k =? i then Some x else l @ k.
Proof. apply zlook_zset. Qed.
Lemma fillc_ok {A} (p : list (option A)) a b v : 0 <= a <= b -> b <= zlen p ->
  exists p', fillc p a b v = Ok p' /\ zlen p' = zlen p /\ forall k, p' @ k = if (a <=? k) && (k <? b) then Some (Some v) else p @ k.
Proof.
  intros H1 H2. apply wp_ok. unfold fillc.
  eapply (wp_forZ (fun n p' => zlen p' = zlen p /\ forall k, p' @ k = if (a <=? k) && (k <? n) then Some (Some v) else p @ k)); [lia|..].
  - split; [done|]. intros k. replace ((a <=? k) && (k <? a)) with false by lia. done.
  - intros i p' Hi [I1 I2]. apply wp_wrc; [lia|]. split; [by rewrite zlen_zset|]. intros k. rewrite zlook_set by lia. rewrite I2.
    destruct (k =? i) eqn:E; [replace ((a <=? k) && (k <? i + 1)) with true by lia; done|].
    replace ((a <=? k) && (k <? i + 1)) with ((a <=? k) && (k <? i)) by lia. done.
  - done.
Qed.
Lemma addScaled_ok input nc i o q out (F Y : Z -> Qc) : 0 <= nc -> 0 <= o -> (o + 1) * nc <= zlen out ->
  (forall c, 0 <= c < nc -> input @ (i * nc + c) = Some (Some (F c))) ->
  (forall c, 0 <= c < nc -> out @ (o * nc + c) = Some (Some (Y c))) ->
  exists out', addScaled input nc i o q out = Ok out' /\ zlen out' = zlen out /\
    forall p, out' @ p = if (o * nc <=? p) && (p <? (o + 1) * nc) then Some (Some (F (p - o * nc)%Z * q + Y (p - o * nc)%Z)%Qc) else out @ p.
Proof.
  intros Hn Ho Hl HF HY. apply wp_ok. unfold addScaled.
  eapply (wp_forZ (fun n out' => zlen out' = zlen out /\
    forall p, out' @ p = if (o * nc <=? p) && (p <? o * nc + n) then Some (Some (F (p - o * nc)%Z * q + Y (p - o * nc)%Z)%Qc) else out @ p)); [lia|..].
  - split; [done|]. intros p. replace ((o * nc <=? p) && (p <? o * nc + 0)) with false by lia. done.
  - intros c out' Hc [I1 I2]. unfold rdc. rewrite HF by lia. cbn [bind]. rewrite I2.
    replace ((o * nc <=? o * nc + c) && (o * nc + c <? o * nc + c)) with false by lia. rewrite HY by lia. cbn [bind].
    assert (0 <= o * nc) by nia. assert (o * nc + nc <= zlen out) by nia.
    apply wp_wrc; [lia|]. split; [by rewrite zlen_zset|]. intros p. rewrite zlook_set by lia. rewrite I2.
    destruct (p =? o * nc + c) eqn:E.
    + replace ((o * nc <=? p) && (p <? o * nc + (c + 1))) with true by lia. replace (p - o * nc) with c by lia. done.
    + replace ((o * nc <=? p) && (p <? o * nc + (c + 1))) with ((o * nc <=? p) && (p <? o * nc + c)) by lia. done.
  - intros s [I1 I2]. split; [done|]. intros p. rewrite I2. replace (o * nc + nc) with ((o + 1) * nc) by lia. done.
Qed.
Lemma qdiv_ok x y : y <> 0%Qc -> qdiv x y = Ok (x / y)%Qc.
Proof. intros H. unfold qdiv. by destruct (Qc_eq_dec y 0%Qc). Qed.

(** The contribution of the coefficients of a row. *)
Definition contrib (D : Z -> Qc) (F : Z -> Z -> Qc) (c : Z) (r : row) : Qc := sumQ (map (fun '(j, v) => v / D j * F j c)%Qc r).
Lemma contrib_snoc D F c r j v : contrib D F c (r ++ [(j, v)]) = (contrib D F c r + v / D j * F j c)%Qc.
Proof. unfold contrib. rewrite map_app. cbn [map]. apply sumQ_snoc. Qed.
Lemma row_product input nc idx (r : row) D F out n : 0 <= nc -> 0 <= idx -> (idx + 1) * nc <= zlen out ->
  (forall j, j ∈ r.*1 -> 0 <= j < n) -> (forall j, j ∈ r.*1 -> D j <> 0%Qc) ->
  (forall j c, 0 <= j < n -> 0 <= c < nc -> input @ (j * nc + c) = Some (Some (F j c))) ->
  (forall c, 0 <= c < nc -> out @ (idx * nc + c) = Some (Some 0%Qc)) ->
  exists out', foldM (fun '(out, it) '(j, v) =>
        match (it : row) with
        | [] => UB
        | (_, d) :: it => let* q := qdiv v d in let* out := addScaled input nc j idx q out in Ok (out, it)
        end) r (out, (map (fun k => (k, D k)) r.*1) : row) = Ok (out', [] : row) /\ zlen out' = zlen out /\
    forall p, out' @ p = if (idx * nc <=? p) && (p <? (idx + 1) * nc) then Some (Some (contrib D F (p - idx * nc) r)) else out @ p.
Proof.
  intros Hn Hi Hl Hr HD HF H0.
  assert (W : wp (foldM (fun '(out, it) '(j, v) =>
        match (it : row) with
        | [] => UB
        | (_, d) :: it => let* q := qdiv v d in let* out := addScaled input nc j idx q out in Ok (out, it)
        end) r (out, (map (fun k => (k, D k)) r.*1) : row)) (fun '(out', it) => it = [] /\ zlen out' = zlen out /\
    forall p, out' @ p = if (idx * nc <=? p) && (p <? (idx + 1) * nc) then Some (Some (contrib D F (p - idx * nc) r)) else out @ p) False).
  { eapply (wp_foldM _ (fun pre '(out', it) => (exists post, r = pre ++ post /\ it = map (fun k => (k, D k)) post.*1) /\ zlen out' = zlen out /\
      forall p, out' @ p = if (idx * nc <=? p) && (p <? (idx + 1) * nc) then Some (Some (contrib D F (p - idx * nc) pre)) else out @ p)).
    - split; [by exists r|]. split; [done|]. intros p. destruct ((idx * nc <=? p) && (p <? (idx + 1) * nc)) eqn:E; [|done].
      replace p with (idx * nc + (p - idx * nc)) at 1 by lia. rewrite H0 by nia. done.
    - intros pre [j v] post [out' it] E ((post' & E' & ->) & I1 & I2). rewrite E in E'. apply app_inv_head in E' as <-. cbn [fmap list_fmap map fst].
      assert (Hj : j ∈ r.*1) by (rewrite E, fmap_app; set_solver).
      rewrite qdiv_ok by (by apply HD). cbn [bind].
      destruct (addScaled_ok input nc j idx (v / D j)%Qc out' (F j) (fun c => contrib D F c pre)) as (out2 & -> & L2 & V2); [lia|lia|lia|..].
      { intros c Hc. apply HF; [by apply Hr|done]. }
      { intros c Hc. rewrite I2. replace ((idx * nc <=? idx * nc + c) && (idx * nc + c <? (idx + 1) * nc)) with true by lia. by replace (idx * nc + c - idx * nc) with c by lia. }
      cbn [bind wp]. split; [exists post; split; [by rewrite <- app_assoc|done]|]. split; [lia|]. intros p. rewrite V2, I2.
      destruct ((idx * nc <=? p) && (p <? (idx + 1) * nc)); [|done]. do 2 f_equal. rewrite contrib_snoc. ring.
    - intros [out' it] ((post & E & ->) & I). split; [|done]. rewrite <- (app_nil_r r) in E at 1. apply app_inv_head in E as <-. done. }
  apply wp_ok in W as ([out' it] & E & -> & H1 & H2). exists out'. rewrite E. done.
Qed.

Lemma computeProduct_ok (M deno : matrix) D input nc F isDft dft out n :
  0 <= nc -> zlen out = nc * zlen M -> columns_below n M -> (forall i j v, (i, j, v) ∈ coeffs M -> D i j <> 0%Qc) ->
  (forall i r, M @ i = Some r -> r <> [] -> deno @ i = Some (map (fun k => (k, D i k)) r.*1)) ->
  (forall j c, 0 <= j < n -> 0 <= c < nc -> input @ (j * nc + c) = Some (Some (F j c))) ->
  exists out', computeProduct M deno input nc isDft dft out = Ok out' /\ zlen out' = zlen out /\
    forall i c r, M @ i = Some r -> 0 <= c < nc -> out' @ (i * nc + c) =
      match r with [] => if isDft then Some (Some dft) else out @ (i * nc + c) | _ => Some (Some (contrib (D i) F c r)) end.
Proof.
  intros Hn Hl Hc HD Hdn HF. apply wp_ok. unfold computeProduct, rows.
  pose (val := fun i c => match M @ i with Some [] => if isDft then Some (Some dft) else out @ (i * nc + c) | Some r => Some (Some (contrib (D i) F c r)) | None => None end).
  eapply (wp_forZ (fun m out' => zlen out' = zlen out /\ forall i c, 0 <= i < zlen M -> 0 <= c < nc ->
    out' @ (i * nc + c) = if i <? m then val i c else out @ (i * nc + c))); [apply zlen_nonneg|..].
  - split; [done|]. intros i c Hi _. replace (i <? 0) with false by lia. done.
  - intros idx out' Hi [I1 I2]. destruct (zlook_lt M idx Hi) as [r Hr]. rewrite (rd_ok _ _ _ Hr). cbn [bind].
    assert (B1 : 0 <= idx * nc) by nia. assert (B2 : (idx + 1) * nc <= zlen out) by nia.
    assert (Hpos : forall i c, 0 <= c < nc -> (idx * nc <=? i * nc + c) && (i * nc + c <? (idx + 1) * nc) = (i =? idx)).
    { intros i c Hcc. destruct (i =? idx) eqn:E; [lia|]. destruct (i <? idx) eqn:E2; nia. }
    destruct r as [|e r].
    + destruct isDft eqn:Ed.
      * destruct (fillc_ok out' (idx * nc) ((idx + 1) * nc) dft) as (o2 & -> & L2 & V2); [lia|lia|]. cbn [wp]. split; [lia|].
        intros i c Hi2 Hcc. rewrite V2, Hpos by done. destruct (i =? idx) eqn:E.
        -- replace (i <? idx + 1) with true by lia. unfold val. assert (i = idx) as -> by lia. by rewrite Hr.
        -- rewrite I2 by done. replace (i <? idx + 1) with (i <? idx) by lia. done.
      * cbn [wp]. split; [done|]. intros i c Hi2 Hcc. rewrite I2 by done. destruct (decide (i = idx)) as [->|].
        -- replace (idx <? idx) with false by lia. replace (idx <? idx + 1) with true by lia. unfold val. by rewrite Hr.
        -- replace (i <? idx + 1) with (i <? idx) by lia. done.
    + destruct (fillc_ok out' (idx * nc) ((idx + 1) * nc) 0%Qc) as (o2 & -> & L2 & V2); [lia|lia|]. cbn [bind].
      rewrite (rd_ok _ _ _ (Hdn idx _ Hr ltac:(done))). cbn [bind].
      destruct (row_product input nc idx (e :: r) (D idx) F o2 n) as (o3 & E3 & L3 & V3); [lia|lia|lia|..].
      { intros j ([j' v] & -> & Hj)%elem_of_list_fmap. eapply (Hc idx j' v), elem_of_coeffs. eauto. }
      { intros j ([j' v] & -> & Hj)%elem_of_list_fmap. eapply (HD idx j' v), elem_of_coeffs. eauto. }
      { done. }
      { intros c Hcc. rewrite V2, Hpos by done. by rewrite Z.eqb_refl. }
      match goal with |- wp (bind ?m _) _ _ => replace m with (Ok (o3, [] : row)) by (symmetry; exact E3) end.
      cbn [bind wp]. split; [lia|]. intros i c Hi2 Hcc. rewrite V3, V2, Hpos by done. destruct (i =? idx) eqn:E.
      * assert (i = idx) as -> by lia. replace (idx <? idx + 1) with true by lia. unfold val. rewrite Hr. by replace (idx * nc + c - idx * nc) with c by lia.
      * rewrite I2 by done. replace (i <? idx + 1) with (i <? idx) by lia. done.
  - intros out' [I1 I2]. split; [done|]. intros i c r Hr Hcc. pose proof (zlook_Some_lt _ _ _ Hr) as Hi. rewrite I2 by done.
    replace (i <? zlen M) with true by lia. unfold val. rewrite Hr. done.
Qed.

(** The contribution of coefficients to a column. *)
Definition contribR (D : Z -> Z -> Qc) (F : Z -> Z -> Qc) (j c : Z) (L : list (Z * Z * Qc)) : Qc :=
  sumQ (map (fun '(i, j', v) => if j' =? j then v / D i j * F i c else 0)%Qc L).
Lemma contribR_snoc D F j c L i j' v : contribR D F j c (L ++ [(i, j', v)]) = (contribR D F j c L + if j' =? j then v / D i j * F i c else 0)%Qc.
Proof. unfold contribR. rewrite map_app. cbn [map]. apply sumQ_snoc. Qed.
Lemma computeReverseProduct_ok (M denoR : matrix) D input nc F dft out n :
  0 <= nc -> zlen denoR = n -> zlen out = nc * n -> columns_below n M -> (forall i j v, (i, j, v) ∈ coeffs M -> D i j <> 0%Qc) ->
  (forall i j v, (i, j, v) ∈ coeffs M -> exists r, denoR @ j = Some r /\ mfind i r = Some (D i j)) ->
  (forall i c, 0 <= i < zlen M -> 0 <= c < nc -> input @ (i * nc + c) = Some (Some (F i c))) ->
  exists out', computeReverseProduct M denoR input nc dft out = Ok out' /\ zlen out' = zlen out /\
    forall j c, 0 <= j < n -> 0 <= c < nc ->
      (col_reached M j -> out' @ (j * nc + c) = Some (Some (contribR D F j c (coeffs M)))) /\
      (~ col_reached M j -> out' @ (j * nc + c) = Some (Some dft)).
Proof.
  intros Hn Hd Hl Hc HD Hdn HF. apply wp_ok. unfold computeReverseProduct. assert (0 <= n) by (rewrite <- Hd; apply zlen_nonneg).
  destruct (fillc_ok out 0 (nc * zlen denoR) 0%Qc) as (o1 & -> & L1 & V1); [nia|lia|]. cbn [bind].
  rewrite (rows_coeffs M (fun idx '(out, reached) '(j, v) =>
    let* reached := wr reached j true in
    let* dn := rd denoR j in
    let* q := qdiv v (mget idx dn) in
    let* out := addScaled input nc idx j q out in
    Ok (out, reached))).
  assert (Hpos : forall a i c, 0 <= c < nc -> (a * nc <=? i * nc + c) && (i * nc + c <? (a + 1) * nc) = (i =? a)).
  { intros a i c Hcc. destruct (i =? a) eqn:E; [lia|]. destruct (i <? a) eqn:E2; nia. }
  eapply wp_bind'. { eapply (wp_foldM _ (fun pre '(o, reached) => zlen o = zlen out /\ zlen reached = n /\
      (forall j c, 0 <= j < n -> 0 <= c < nc -> o @ (j * nc + c) = Some (Some (contribR D F j c pre))) /\
      (forall j, 0 <= j < n -> (reached @ j = Some true /\ exists i v, (i, j, v) ∈ pre) \/ (reached @ j = Some false /\ ~ exists i v, (i, j, v) ∈ pre)))).
  - split; [lia|]. split. { unfold zlen. rewrite replicate_length. done. } split.
    + intros j c Hj Hcc. rewrite V1. replace ((0 <=? j * nc + c) && (j * nc + c <? nc * zlen denoR)) with true by nia. done.
    + intros j Hj. right. split.
      * assert (Er : replicate (length denoR) false = replicate (Z.to_nat n) false) by (f_equal; unfold zlen in Hd; lia). rewrite Er. apply zlook_replicate. lia.
      * intros (i & v & ?%elem_of_nil). done.
  - intros pre [[i j] v] post [o reached] E (I1 & I2 & I3 & I4).
    assert (He : (i, j, v) ∈ coeffs M) by (rewrite E; set_solver). pose proof (Hc _ _ _ He) as Hj.
    rewrite wr_ok by lia. cbn [bind]. destruct (Hdn _ _ _ He) as (r & Hr & Hf). rewrite (rd_ok _ _ _ Hr). cbn [bind].
    unfold mget. rewrite Hf. rewrite qdiv_ok by (by eapply HD). cbn [bind].
    assert (Hi : 0 <= i < zlen M) by (apply elem_of_coeffs in He as (? & ?%zlook_Some_lt & _); done).
    destruct (addScaled_ok input nc i j (v / D i j)%Qc o (F i) (fun c => contribR D F j c pre)) as (o2 & -> & L2 & V2); [lia|lia|nia|..].
    { intros c Hcc. by apply HF. }
    { intros c Hcc. by apply I3. }
    cbn [bind wp]. split; [lia|]. split; [by rewrite zlen_zset|]. split.
    + intros j' c Hj' Hcc. rewrite V2, Hpos, contribR_snoc, I3 by done. rewrite (Z.eqb_sym j' j). destruct (j =? j') eqn:Ej.
      * assert (j' = j) as -> by lia. replace (j * nc + c - j * nc) with c by lia. do 2 f_equal. ring.
      * do 2 f_equal. ring.
    + intros j' Hj'. rewrite zlook_set by lia. destruct (j' =? j) eqn:Ej.
      * assert (j' = j) as -> by lia. left. split; [done|]. exists i, v. set_solver.
      * destruct (I4 j' Hj') as [[R (i' & v' & ?)]|[R Hx]]; [left|right]; (split; [done|]).
        -- exists i', v'. set_solver.
        -- intros (i' & v' & [?|Hs]%elem_of_app); [apply Hx; eauto|]. apply elem_of_list_singleton in Hs. injection Hs. lia.
  - intros s Hs. exact Hs. }
  intros [o reached] (I1 & I2 & I3 & I4).
  pose (val := fun j c => match reached @ j with Some true => Some (Some (contribR D F j c (coeffs M))) | _ => Some (Some dft) end).
  eapply (wp_forZ (fun m o' => zlen o' = zlen out /\ forall j c, 0 <= j < n -> 0 <= c < nc ->
    o' @ (j * nc + c) = if j <? m then val j c else Some (Some (contribR D F j c (coeffs M))))); [apply zlen_nonneg|..].
  - split; [done|]. intros j c Hj Hcc. replace (j <? 0) with false by lia. by apply I3.
  - intros idx o' Hi [J1 J2]. destruct (zlook_lt reached idx Hi) as [b Hb]. rewrite (rd_ok _ _ _ Hb). cbn [bind]. destruct b.
    + cbn [wp]. split; [done|]. intros j c Hj Hcc. rewrite J2 by done. destruct (decide (j = idx)) as [->|].
      * replace (idx <? idx) with false by lia. replace (idx <? idx + 1) with true by lia. unfold val. by rewrite Hb.
      * replace (j <? idx + 1) with (j <? idx) by lia. done.
    + destruct (fillc_ok o' (idx * nc) ((idx + 1) * nc) dft) as (o2 & -> & L2 & V2); [nia|nia|]. cbn [wp]. split; [lia|].
      intros j c Hj Hcc. rewrite V2, Hpos by done. destruct (j =? idx) eqn:E.
      * assert (j = idx) as -> by lia. replace (idx <? idx + 1) with true by lia. unfold val. by rewrite Hb.
      * rewrite J2 by done. replace (j <? idx + 1) with (j <? idx) by lia. done.
  - intros o' [J1 J2]. split; [done|]. intros j c Hj Hcc. rewrite J2 by done. replace (j <? zlen reached) with true by lia.
    unfold val. destruct (I4 j Hj) as [[-> R]|[-> R]]; (split; [|try done]); try done.
Qed.
