(** Fields on nodes: parts, renumbering. *)
From Coq Require Import QArith Qabs ZifyBool ZifyNat.
From Verif Require Import Base DataArray ArrLib StdModel StdProofs RenumModel RenumSpec RenumProofs RenumProofs2 SlicesModel SlicesSpec SlicesProofs IndexSpec IndexModel IndexProofs IndexProofs2 PermProofs FillLib CellTable SkyModel SkyProofs UmModel UmSpec UmProofs UmProofs2 UmProofs5 UmProofs9 UmProofs10 UcModel GlModel GlSpec GlProofs FdModel FdSpec FdProofs FdProofs2 FdProofs3 FdProofs4 FdProofs5.
Local Open Scope Z_scope.

(** * Part of a field on nodes *)
Lemma used_or (cells : list cell) n : used cells n \/ ~ used cells n.
Proof.
  destruct (decide (0 <= n /\ Exists (fun c : cell => n ∈ c.2) cells)) as [[H H']|H]; [left; split; [done|]; by apply Exists_exists|]. right. intros [H1 H2]. apply H. split; [done|]. by apply Exists_exists.
Qed.
Lemma reduce_ok p sel nb d : stores p sel -> typed p sel -> um_coords p = Some d -> sized d nb -> (forall n, used sel n -> n < nb) ->
  exists m' tr k n2o, reduceNodes p = Ok (m', n2o) /\ stores m' (rename (ren tr) <$> sel) /\ typed m' (rename (ren tr) <$> sel) /\ um_dim m' = um_dim p /\ has_nodes m' k /\ zlen n2o = k /\ (forall v, v ∈ n2o -> 0 <= v < nb) /\
    (forall n, used sel n -> exists t, tr @ n = Some t /\ rank_in sel n t /\ (forall q, point p n q -> point m' t q) /\ n2o @ t = Some n) /\
    (forall t, 0 <= t < k <-> used (rename (ren tr) <$> sel) t).
Proof.
  intros Hs Ht Hc (Ha & Hwf & Hnc & Hnt) Hu. destruct (UmProofs5.zip_ok p sel nb d Hs Ht Hc Ha Hwf Hnc Hnt Hu) as (m' & tr & k & Ez & Hl & Hs' & Ht' & Hd' & Hh & Hun & Hus & Hk).
  assert (Hk0 : 0 <= k) by (destruct Hh as (d' & _ & _ & Hw' & <-); apply da_wf_len in Hw'; lia).
  assert (Hcase : forall n t, tr @ n = Some t -> t = -1 /\ ~ used sel n \/ used sel n /\ rank_in sel n t /\ 0 <= t < k).
  { intros n t Hn. apply zlook_Some_lt in Hn as Hb. destruct (used_or sel n) as [U|U].
    - right. split; [done|]. destruct (Hus n U) as (t' & Ht1 & Hr & _). rewrite Hn in Ht1. injection Ht1 as <-. split; [done|]. apply Hk. destruct U as (Hn0 & c & Hc' & Hnc'). assert (0 <= t) by (destruct Hr as (l & _ & _ & <-); apply zlen_nonneg). split; [done|]. exists (rename (ren tr) c). split; [by apply elem_of_list_fmap_1|].
      cbn [rename snd]. apply elem_of_list_fmap. exists n. split; [|done]. replace (0 <=? n) with true by lia. unfold ren. by rewrite Hn.
    - left. split; [|done]. rewrite (Hun n ltac:(lia) U) in Hn. by injection Hn. }
  assert (Hinj : forall n n' t, tr @ n = Some t -> tr @ n' = Some t -> 0 <= t -> n = n').
  { intros n n' t Hn Hn' Ht0. destruct (Hcase n t Hn) as [[? _]|(U & R & _)]; [lia|]. destruct (Hcase n' t Hn') as [[? _]|(U' & R' & _)]; [lia|]. destruct (Z.lt_trichotomy n n') as [L|[L|L]]; [|done|].
    - pose proof (rank_lt _ _ _ _ _ U L R R'). lia.
    - pose proof (rank_lt _ _ _ _ _ U' L R' R). lia. }
  assert (Hon : forall t, 0 <= t < k -> exists n, used sel n /\ tr @ n = Some t).
  { intros t Htk. apply Hk in Htk as (Ht0 & c' & Hc' & Hin). apply elem_of_list_fmap in Hc' as (c & -> & Hcs). cbn [rename snd] in Hin. apply elem_of_list_fmap in Hin as (n & E & Hin). destruct (Z.leb_spec 0 n) as [Hn|Hn]; [|lia]. assert (U : used sel n) by (split; [done|]; by exists c). exists n. split; [done|]. destruct (Hus n U) as (t' & Ht1 & _). unfold ren in E. rewrite Ht1 in E. cbn in E. by subst t'. }
  destruct (invertO2N_ok tr k Hk0) as (r & Er & Hrl & Hlast & _).
  { intros v Hv. apply elem_of_zlook in Hv as [n Hn]. destruct (Hcase n v Hn) as [[-> _]|(_ & _ & ?)]; [by left|by right]. }
  assert (Hat : forall n t, used sel n -> tr @ n = Some t -> r @ t = Some (Some n)).
  { intros n t U Hn. apply Hlast; [destruct (Hcase n t Hn) as [[_ ?]|(_ & _ & ?)]; done|]. split; [done|]. intros q Hq Hq'. destruct (Hcase n t Hn) as [[_ ?]|(_ & _ & ?)]; [done|]. assert (n = q) by (eapply Hinj; [done|done|lia]). lia. }
  destruct (Forall2_has (fun (x : option Z) n => x = Some n) r) as [n2o Hn2o].
  { intros x Hx. apply elem_of_zlook in Hx as [t Hx]. apply zlook_Some_lt in Hx as Hb. destruct (Hon t ltac:(lia)) as (n & U & Hn). rewrite (Hat n t U Hn) in Hx. injection Hx as <-. by exists n. }
  assert (Eq : r = Some <$> n2o). { clear -Hn2o. induction Hn2o as [|x n l l' -> H IH]; [done|]. rewrite fmap_cons. by rewrite IH. }
  assert (Hno : forall n t, used sel n -> tr @ n = Some t -> n2o @ t = Some n). { intros n t U Hn. specialize (Hat n t U Hn). rewrite Eq, zlook_fmap in Hat. destruct (n2o @ t) as [x|]; [|done]. cbn in Hat. by injection Hat as ->. }
  exists m', tr, k, n2o. split.
  { unfold reduceNodes. rewrite Ez. cbn [bind]. unfold getNumberOfNodes. destruct Hh as (d' & -> & _ & _ & ->). cbn [bind]. rewrite Er. cbn [bind]. rewrite Eq, initialised_ok. done. }
  split; [done|]. split; [done|]. split; [done|]. split; [done|]. split; [rewrite <- Hrl, Eq; by rewrite zlen_fmap|]. split.
  { intros v Hv. apply elem_of_zlook in Hv as [t Hv]. apply zlook_Some_lt in Hv as Hb. rewrite <- (zlen_fmap Some), <- Eq, Hrl in Hb. destruct (Hon t Hb) as (n & U & Hn). rewrite (Hno n t U Hn) in Hv. injection Hv as <-. split; [apply U|by apply Hu]. }
  split; [|done]. intros n U. destruct (Hus n U) as (t & H1 & H2 & H3). exists t. split; [done|]. split; [done|]. split; [done|]. by apply Hno.
Qed.
Lemma taken_values {A} (arrs arrs' : list (option (da A))) di n t : Forall2 (taken_arr di) arrs arrs' -> di @ t = Some n ->
  Forall2 (fun a a' => match a, a' with None, None => True | Some a, Some a' => da_nc a' = da_nc a /\ forall j, ij a' t j = ij a n j | _, _ => False end) arrs arrs'.
Proof. intros H Hn. eapply Forall2_impl; [exact H|]. intros [a|] [a'|] Hm; try done. destruct Hm as (E & _ & Hm). split; [done|]. intros j. by apply Hm. Qed.
Lemma used_part cells ids sel n : picked cells ids sel -> used sel n -> used cells n.
Proof. intros Hp (H0 & c & Hc & Hn). split; [done|]. exists c. split; [|done]. apply elem_of_list_lookup in Hc as [k Hk]. destruct (Forall2_lookup_r _ _ _ _ _ Hp Hk) as (i & _ & E). by eapply zlook_elem. Qed.
Lemma zip_nc p m' o2n d : zipCoordsTraducer p = Ok (m', o2n) -> um_coords p = Some d -> exists d', um_coords m' = Some d' /\ da_nc d' = da_nc d.
Proof.
  intros E Hd. unfold zipCoordsTraducer in E. destruct (getNodeIdsInUse p) as [[tr n]| | |]; try done. cbn [bind] in E. unfold renumberNodes in E. rewrite Hd in E.
  assert (K : forall r, renumberAndReduce d tr n = Ok r -> da_nc r = da_nc d).
  { intros r Hr. unfold renumberAndReduce, checkAllocated in Hr. destruct (da_alloc d); [|done]. cbn [negb ifthrow] in Hr. destruct (alloc Q n (da_nc d)) as [o| | |]; try done. cbn [bind] in Hr. match type of Hr with context [forZ ?a ?b ?f ?s] => destruct (forZ a b f s) as [o'| | |]; try done end. cbn [bind] in Hr. by injection Hr as <-. }
  destruct (renumberAndReduce d tr n) as [nc| | |]; try done. cbn [bind] in E. destruct (renumberNodesInConn p tr) as [m2| | |]; try done. cbn [bind] in E. unfold written in E. destruct (initialised (da_vals nc)) as [v| | |]; try done. cbn [bind] in E. injection E as <- <-. eexists. split; [reflexivity|]. cbn. by apply K.
Qed.
Lemma reduce_nc p m' n2o d : reduceNodes p = Ok (m', n2o) -> um_coords p = Some d -> exists d', um_coords m' = Some d' /\ da_nc d' = da_nc d.
Proof.
  intros E Hd. unfold reduceNodes in E. destruct (zipCoordsTraducer p) as [[q tr]| | |] eqn:Ez; try done. cbn [bind] in E. destruct (getNumberOfNodes q) as [n| | |]; try done. cbn [bind] in E. destruct (invertArrayO2N2N2O (vec tr) n) as [r| | |]; try done. cbn [bind] in E. destruct (initialised r) as [l| | |]; try done. cbn [bind] in E. injection E as <- _. by eapply zip_nc.
Qed.
Lemma node_core {A} (f : field A) cells nb ids sel p : on_nodes f cells nb -> picked cells ids sel -> stores p sel -> typed p sel -> um_dim p = um_dim (fd_mesh f) -> um_coords p = um_coords (fd_mesh f) ->
  exists m' n2o arrs', reduceNodes p = Ok (m', n2o) /\ selectAll (fun a => mySelectByTupleIdSafe a n2o) (fd_arrs f) = Ok arrs' /\ node_part f sel (FD P1 m' arrs').
Proof.
  intros (Hp1 & Hs & (d & Hd & Hsz) & Hu & Ha) Hp Hsp Htp Hdp Hcp. rewrite Hd in Hcp. destruct (reduce_ok p sel nb d Hsp Htp Hcp Hsz) as (m' & tr & k & n2o & Er & Hs' & Ht' & Hd' & Hh & Hl & Hr & Hus & Hk).
  { intros n U. apply Hu. by eapply used_part. }
  destruct (selectAll_ok (fun a => mySelectByTupleIdSafe a n2o) (fd_arrs f) n2o nb Ha Hr) as (arrs' & Ea & Hm); [done|].
  exists m', n2o, arrs'. split; [done|]. split; [done|]. exists tr, k. split.
  { split; [done|]. split; [done|]. split.
    - destruct (reduce_nc _ _ _ _ Er Hcp) as (d1 & E1 & E2). destruct Hh as (d' & Ed & Hal & Hwf & Hnt). rewrite Ed in E1. injection E1 as <-. exists d'. split; [done|]. split; [done|]. split; [done|]. split; [|done]. rewrite E2. apply Hsz.
    - split; [intros n U; by apply Hk|]. intros a Hain. rewrite <- Hl. by eapply taken_sized. }
  split; [done|]. split; [cbn; congruence|]. split; [done|]. intros n U. destruct (Hus n U) as (t & H1 & H2 & H3 & H4). exists t. split; [done|]. split; [done|]. split.
  - intros q Hq. apply H3. destruct Hq as (d' & E & Hq). rewrite Hd in E. injection E as <-. exists d. done.
  - unfold same_values. cbn [fd_arrs]. by eapply taken_values.
Qed.
Lemma part_nodes {A} (f : field A) cells nb ids sel : on_nodes f cells nb -> 0 <= um_dim (fd_mesh f) -> picked cells ids sel -> exists f', buildSubPart f ids = Ok f' /\ node_part f sel f'.
Proof.
  intros Hf Hd Hp. pose proof Hf as (Hp1 & Hs & _). destruct (partOf_ok _ _ _ _ Hs Hd Hp) as (p & Em & Hs' & Ht' & Hd' & Hc'). destruct (node_core f cells nb ids sel p Hf Hp Hs' Ht' Hd' Hc') as (m' & n2o & arrs' & E1 & E2 & H). exists (FD P1 m' arrs'). split; [|done].
  unfold buildSubPart, buildSubMeshData. rewrite Hp1, Em. cbn [bind]. rewrite E1. cbn [bind clonePart]. rewrite E2. done.
Qed.
Lemma range_nodes {A} (f : field A) cells nb b e s ids sel : on_nodes f cells nb -> 0 <= um_dim (fd_mesh f) -> valid_range b e s -> is_range_list b e s ids -> picked cells ids sel -> exists f', buildSubPartRange f b e s = Ok f' /\ node_part f sel f'.
Proof.
  intros Hf Hd Hv Hr Hp. pose proof Hf as (Hp1 & Hs & (d & Hc & _) & _). destruct (sliceOf_ok _ _ _ _ _ _ _ Hs Hd ltac:(by exists d) Hv Hr Hp) as (p & Em & Hs' & Ht' & Hd' & Hc'). destruct (node_core f cells nb ids sel p Hf Hp Hs' Ht' Hd' Hc') as (m' & n2o & arrs' & E1 & E2 & H). exists (FD P1 m' arrs'). split; [|done].
  unfold buildSubPartRange, buildSubMeshDataRange. rewrite Hp1, Em. cbn [bind]. rewrite E1. cbn [bind clonePartRange]. rewrite E2. done.
Qed.
Lemma nodes_bad {A} (f : field A) cells nb ids i : on_nodes f cells nb -> 0 <= um_dim (fd_mesh f) -> i ∈ ids -> ~ 0 <= i < zlen cells -> buildSubPart f ids = Throw.
Proof. intros (Hp1 & Hs & _) Hd Hi Hn. unfold buildSubPart, buildSubMeshData. rewrite Hp1. by rewrite (partOf_throw _ _ _ _ Hs Hd Hi Hn). Qed.
Lemma nodes_range_bad {A} (f : field A) cells nb b e s : on_nodes f cells nb -> 0 <= um_dim (fd_mesh f) -> (~ valid_range b e s \/ exists ids v, is_range_list b e s ids /\ v ∈ ids /\ ~ 0 <= v < zlen cells) -> buildSubPartRange f b e s = Throw.
Proof. intros (Hp1 & Hs & (d & Hc & _) & _) Hd H. unfold buildSubPartRange, buildSubMeshDataRange. rewrite Hp1. destruct (partRange_throw _ _ _ _ _ Hs Hd ltac:(by exists d) H) as [E _]. by rewrite E. Qed.

(** * Values by node numbers *)
Lemma forZ_and (body : Z -> bool -> res bool) g n b0 : 0 <= n -> (forall k b, 0 <= k < n -> body k b = Ok (b && g k)) -> exists b, forZ 0 n body b0 = Ok b /\ (b = true <-> b0 = true /\ forall k, 0 <= k < n -> g k = true).
Proof.
  intros Hn H. match goal with |- context [forZ ?x ?y ?f ?s0] => assert (W : wp (forZ x y f s0) (fun b => b = true <-> b0 = true /\ forall k, 0 <= k < n -> g k = true) False) end.
  { apply (wp_forZ (fun i b => b = true <-> b0 = true /\ forall k, 0 <= k < i -> g k = true)); [done| | |done].
    - split; [intros ->; split; [done|intros; lia]|by intros [-> _]].
    - intros i b Hi HI. rewrite (H i b Hi). cbn [wp]. rewrite andb_true_iff, HI. split.
      + intros [[H1 H2] H3]. split; [done|]. intros k Hk. destruct (decide (k = i)) as [->|]; [done|]. apply H2. lia.
      + intros [H1 H2]. split; [split; [done|]|]; [intros k Hk; apply H2; lia|apply H2; lia]. }
  apply wp_ok in W as (b & E & Hb). by exists b.
Qed.
Lemma forZ_or (body : Z -> bool -> res bool) g n : 0 <= n -> (forall k b, 0 <= k < n -> body k b = Ok (b || g k)) -> exists b, forZ 0 n body false = Ok b /\ (b = false <-> forall k, 0 <= k < n -> g k = false).
Proof.
  intros Hn H. match goal with |- context [forZ ?x ?y ?f ?s0] => assert (W : wp (forZ x y f s0) (fun b => b = false <-> forall k, 0 <= k < n -> g k = false) False) end.
  { apply (wp_forZ (fun i b => b = false <-> forall k, 0 <= k < i -> g k = false)); [done| | |done].
    - split; [intros _; intros; lia|done].
    - intros i b Hi HI. rewrite (H i b Hi). cbn [wp]. rewrite orb_false_iff, HI. split.
      + intros [H1 H2] k Hk. destruct (decide (k = i)) as [->|]; [done|]. apply H1. lia.
      + intros H1. split; [intros k Hk; apply H1; lia|apply H1; lia]. }
  apply wp_ok in W as (b & E & Hb). by exists b.
Qed.
Lemma write_tuple {A} (src pt : list A) s t nc : 0 <= nc -> 0 <= s -> s + nc <= zlen src -> 0 <= t -> t + nc <= zlen pt ->
  exists pt', forZ 0 nc (fun k pt => let* x := rd src (s + k) in wr pt (t + k) x) pt = Ok pt' /\ zlen pt' = zlen pt /\ (forall j, 0 <= j < nc -> pt' @ (t + j) = src @ (s + j)) /\ (forall q, ~ t <= q < t + nc -> pt' @ q = pt @ q).
Proof.
  intros Hn Hs Hsl Ht Htl. match goal with |- context [forZ ?x ?y ?f ?s0] => assert (W : wp (forZ x y f s0) (fun pt' => zlen pt' = zlen pt /\ (forall j, 0 <= j < nc -> pt' @ (t + j) = src @ (s + j)) /\ (forall q, ~ t <= q < t + nc -> pt' @ q = pt @ q)) False) end.
  { apply (wp_forZ (fun i pt' => zlen pt' = zlen pt /\ (forall j, 0 <= j < i -> pt' @ (t + j) = src @ (s + j)) /\ (forall q, ~ t <= q < t + i -> pt' @ q = pt @ q))); [done| | |done].
    - split; [done|]. split; [intros; lia|done].
    - intros i pt' Hi (H1 & H2 & H3). destruct (zlook_lt src (s + i) ltac:(lia)) as [x Hx]. rewrite (rd_ok _ _ _ Hx). cbn [bind]. rewrite wr_ok by lia. cbn [wp]. rewrite zlen_zset. split; [done|]. split.
      + intros j Hj. rewrite zlook_zset by lia. destruct (Z.eqb_spec (t + j) (t + i)) as [E|E]; [assert (j = i) as -> by lia; by rewrite Hx|]. apply H2. lia.
      + intros q Hq. rewrite zlook_zset by lia. destruct (Z.eqb_spec q (t + i)) as [E|E]; [lia|]. apply H3. lia. }
  apply wp_ok in W as (pt' & E & H). by exists pt'.
Qed.
Lemma first_or (p : list Z) n i : 0 <= i <= zlen p -> (exists q, first_pos p n q /\ 0 <= q < i) \/ (forall q, 0 <= q < i -> p @ q <> Some n).
Proof.
  intros [Hi Hle]. revert Hle. pattern i. apply natlike_ind; [| |done]; clear i Hi.
  - intros _. right. intros; lia.
  - intros i Hi IH Hle. destruct IH as [(q & Hq & Hb)|H]; [lia|left; exists q; split; [done|lia]|]. destruct (decide (p @ i = Some n)) as [E|E].
    + left. exists i. split; [|lia]. split; [done|]. intros k Hk E'. apply zlook_Some_lt in E' as ?. apply (H k); [lia|done].
    + right. intros q Hq. destruct (decide (q = i)) as [->|]; [done|]. apply H. lia.
Qed.
Lemma first_unique (p : list Z) n i i' : first_pos p n i -> first_pos p n i' -> i = i'.
Proof. intros [H1 H2] [H3 H4]. destruct (Z.lt_trichotomy i i') as [L|[L|L]]; [|done|]; [by destruct (H4 i L)|by destruct (H2 i' L)]. Qed.
Lemma entities_ok big eps p newNb (a : da Q) nt : sized a nt -> zlen p = nt -> 0 <= newNb -> (forall v, v ∈ p -> v < newNb) -> unmarked big a ->
  (exists r, RenumberEntitiesFromO2NArr big eps p newNb a = Ok r /\ agree eps p a /\ da_nc r = da_nc a /\ sized r newNb /\ (forall n i j, 0 <= n -> first_pos p n i -> ij r n j = ij a i j) /\
     (forall n j, 0 <= n < newNb -> n ∉ p -> 0 <= j < da_nc a -> ij r n j = Some big)) \/
  (RenumberEntitiesFromO2NArr big eps p newNb a = Throw /\ ~ agree eps p a).
Proof.
  intros (Ha & Hwf & Hnc & Hnt) Hp Hn Hv Hm. unfold RenumberEntitiesFromO2NArr, checkAllocated. rewrite Ha. cbn [negb ifthrow]. replace (newNb <? 0) with false by lia. cbn [ifthrow]. pose proof (da_wf_len a Hwf) as (Hvl & Hn0 & _). unfold unmarked in Hm. rewrite Hnt in *. set (nc := da_nc a) in *. set (src := da_vals a) in *.
  assert (Hsv : forall i k, 0 <= i < nt -> 0 <= k < nc -> exists x, src @ (i * nc + k) = Some x /\ True) by (intros i k Hi Hk; destruct (zlook_lt src (i * nc + k) ltac:(nia)) as [x Hx]; by exists x).
  set (inv := fun i (pt : list Q) => zlen pt = nc * newNb /\
     (forall n k q, 0 <= n < newNb -> 0 <= k < nc -> first_pos p n q -> q < i -> pt @ (n * nc + k) = src @ (q * nc + k)) /\
     (forall n k, 0 <= n < newNb -> 0 <= k < nc -> (forall q, 0 <= q < i -> p @ q <> Some n) -> pt @ (n * nc + k) = Some big) /\
     (forall q q' n, 0 <= n -> first_pos p n q -> p @ q' = Some n -> q < q' < i -> close (nearQ eps) a q q')).
  match goal with |- context [forZ 0 nt ?f ?s0] => assert (W : wp (forZ 0 nt f s0) (inv nt) (~ agree eps p a)) end.
  { apply (wp_forZ inv); [lia| | |done].
    - split; [rewrite zlen_replicate; nia|]. split; [|split].
      + intros n k q _ _ [Hq _] Hlt. apply zlook_Some_lt in Hq. lia.
      + intros n k Hn' Hk _. apply zlook_replicate. nia.
      + intros q q' n _ _ Hq' Hlt. apply zlook_Some_lt in Hq'. lia.
    - intros i pt Hi (I1 & I2 & I3 & I4). destruct (zlook_lt p i ltac:(lia)) as [n Hpi]. rewrite (rd_ok _ _ _ Hpi). cbn [bind]. destruct (Z.leb_spec 0 n) as [Hn1|Hn1].
      2:{ cbn [wp]. split; [done|]. split; [|split].
          - intros n' k q Hn' Hk Hq Hlt. apply I2; [done..|]. destruct (decide (q = i)) as [->|]; [|lia]. destruct Hq as [Hq _]. rewrite Hpi in Hq. injection Hq as ->. lia.
          - intros n' k Hn' Hk H. apply I3; [done..|]. intros q Hq. apply H. lia.
          - intros q q' n' Hn' Hq Hq' Hlt. apply (I4 q q' n'); [done..|]. destruct (decide (q' = i)) as [->|]; [|lia]. rewrite Hpi in Hq'. injection Hq' as ->. lia. }
      assert (Hnb : n < newNb) by (apply Hv; by eapply zlook_elem).
      assert (Hpv : forall k, 0 <= k < nc -> exists y, pt @ (n * nc + k) = Some y) by (intros k Hk; apply zlook_lt; nia).
      edestruct (forZ_and (fun k fresh => let* x := rd pt (n * nc + k) in Ok (fresh && Qeq_bool x big)) (fun k => match pt @ (n * nc + k) with Some x => Qeq_bool x big | None => false end) nc true) as (fresh & -> & Hfr); [lia|intros k b Hk; destruct (Hpv k Hk) as [y Hy]; rewrite (rd_ok _ _ _ Hy), Hy; done|]. cbn [bind].
      destruct (first_or p n i ltac:(lia)) as [(q & Hq & Hqi)|Hno].
      + (* seen before *)
        destruct fresh.
        { exfalso. destruct (proj1 Hfr eq_refl) as [_ H]. destruct (Hm q ltac:(lia)) as (j & x & Hx & Hne). unfold ij in Hx. fold nc src in Hx. replace (0 <=? q) with true in Hx by lia. cbn [andb] in Hx. destruct (Z.leb_spec 0 j); [|done]. destruct (Z.ltb_spec j nc); [|done]. cbn [andb] in Hx. specialize (H j ltac:(lia)). cbn beta in H. rewrite (I2 n j q ltac:(lia) ltac:(lia) Hq ltac:(lia)), Hx in H. by apply Qeq_bool_iff in H. }
        edestruct (forZ_or (fun k far => let* x := rd src (i * nc + k) in let* y := rd pt (n * nc + k) in Ok (far || Qltb eps (Qabs (x - y)))) (fun k => match src @ (i * nc + k), src @ (q * nc + k) with Some x, Some y => Qltb eps (Qabs (x - y)) | _, _ => false end) nc) as (far & -> & Hfar); [lia| |].
        { intros k b Hk. destruct (Hsv i k Hi Hk) as (x & Hx & _). destruct (Hsv q k ltac:(lia) Hk) as (y & Hy & _). rewrite (rd_ok _ _ _ Hx). cbn [bind]. rewrite (rd_ok pt _ y) by (rewrite (I2 n k q); [done|lia|lia|done|lia]). cbn [bind]. rewrite Hx, Hy. done. }
        cbn [bind].
        assert (Hclose : far = false <-> close (nearQ eps) a q i).
        { rewrite Hfar. unfold close, ij. fold nc src. split.
          - intros H j x y Hx Hy. destruct (Z.leb_spec 0 j); [|by rewrite andb_false_r in Hx]. destruct (Z.ltb_spec j nc); [|by rewrite andb_false_r in Hx]. replace (0 <=? q) with true in Hx by lia. replace (0 <=? i) with true in Hy by lia. cbn [andb] in Hx, Hy. specialize (H j ltac:(lia)). cbn beta in H. rewrite Hx, Hy in H. unfold nearQ, Qltb in *. destruct (Qle_bool (Qabs (y - x)) eps); done.
          - intros H k Hk. destruct (Hsv i k Hi Hk) as (y & Hy & _). destruct (Hsv q k ltac:(lia) Hk) as (x & Hx & _). rewrite Hx, Hy. specialize (H k x y). replace (0 <=? q) with true in H by lia. replace (0 <=? i) with true in H by lia. replace (0 <=? k) with true in H by lia. replace (k <? nc) with true in H by lia. specialize (H Hx Hy). unfold nearQ, Qltb in *. by rewrite H. }
        destruct far; cbn [ifthrow wp].
        { intros Hag. assert (true = false); [|done]. apply Hclose. apply (Hag q i n); [done..|lia]. }
        split; [done|]. split; [|split].
        * intros n' k q' Hn' Hk Hq' Hlt. apply I2; [done..|]. destruct (decide (q' = i)) as [->|]; [|lia]. destruct Hq' as [E E']. rewrite Hpi in E. injection E as <-. destruct Hq as [Hq _]. by destruct (E' q ltac:(lia)).
        * intros n' k Hn' Hk H. apply I3; [done..|]. intros q' Hq'. apply H. lia.
        * intros q1 q2 n' Hn' Hq1 Hq2 Hlt. destruct (decide (q2 = i)) as [->|]; [|apply (I4 q1 q2 n'); [done..|lia]]. rewrite Hpi in Hq2. injection Hq2 as <-. rewrite (first_unique _ _ _ _ Hq1 Hq). by apply Hclose.
      + (* first time *)
        assert (Hfirst : first_pos p n i). { split; [done|]. intros k Hk E. apply zlook_Some_lt in E as ?. apply (Hno k); [lia|done]. }
        destruct fresh.
        2:{ assert (false = true); [|done]. apply Hfr. split; [done|]. intros k Hk. rewrite (I3 n k); [|lia|done|done]. by apply Qeq_bool_iff. }
        destruct (write_tuple src pt (i * nc) (n * nc) nc) as (pt' & -> & Hl & Hw1 & Hw2); [lia|nia|nia|nia|nia|]. cbn [wp]. split; [lia|].
        assert (Hother : forall n' k, n' <> n -> 0 <= n' < newNb -> 0 <= k < nc -> pt' @ (n' * nc + k) = pt @ (n' * nc + k)). { intros n' k Hne Hn' Hk. apply Hw2. destruct (Z.lt_trichotomy n n') as [L|[L|L]]; [|done|]; nia. }
        split; [|split].
        * intros n' k q' Hn' Hk Hq' Hlt. destruct (decide (n' = n)) as [->|Hne]; [rewrite (first_unique _ _ _ _ Hq' Hfirst); by apply Hw1|]. rewrite Hother by done. apply I2; [done..|]. destruct (decide (q' = i)) as [->|]; [|lia]. destruct Hq' as [E _]. rewrite Hpi in E. injection E as ->. done.
        * intros n' k Hn' Hk H. assert (Hne : n' <> n) by (intros ->; apply (H i); [lia|done]). rewrite Hother by done. apply I3; [done..|]. intros q' Hq'. apply H. lia.
        * intros q1 q2 n' Hn' Hq1 Hq2 Hlt. destruct (decide (q2 = i)) as [->|]; [|apply (I4 q1 q2 n'); [done..|lia]]. rewrite Hpi in Hq2. injection Hq2 as <-. pose proof (first_unique _ _ _ _ Hq1 Hfirst). lia. }
  match goal with |- context [forZ 0 nt ?f ?s0] => destruct (forZ 0 nt f s0) as [pt| | |]; cbn [wp] in W; try done end.
  - left. cbn [bind]. destruct W as (I1 & I2 & I3 & I4). eexists. split; [reflexivity|]. split.
    { intros i i' n Hn' Hf Hi' Hlt. apply (I4 i i' n); [done..|]. apply zlook_Some_lt in Hi'. lia. }
    split; [done|]. split.
    { split; [done|]. split; [split; [cbn; lia|exists newNb; cbn; split; [done|lia]]|]. split; [done|]. apply da_nt_mul; [cbn; lia|cbn; lia|cbn; lia]. }
    unfold ij. cbn [da_nc da_vals]. fold nc src. split.
    + intros n i j Hn' Hf. pose proof Hf as [Hi _]. apply zlook_Some_lt in Hi as ?. assert (n < newNb) by (apply Hv; by eapply zlook_elem). replace (0 <=? n) with true by lia. replace (0 <=? i) with true by lia. cbn [andb]. destruct (Z.leb_spec 0 j); [|done]. destruct (Z.ltb_spec j nc); [|done]. cbn [andb]. apply I2; [lia|lia|done|lia].
    + intros n j Hn' Hnp Hj. replace (0 <=? n) with true by lia. replace (0 <=? j) with true by lia. replace (j <? nc) with true by lia. cbn [andb]. apply I3; [done..|]. intros q Hq E. apply Hnp. by eapply zlook_elem.
  - right. done.
Qed.
