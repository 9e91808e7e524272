From Coq Require Import QArith ZifyBool ZifyNat.
From Verif Require Import Base DataArray ArrLib FillLib StdModel StdProofs IndexSpec IndexProofs2 IndexProofs3 IndexProofs4 SkyProofs RenumModel RenumSpec RenumProofs RenumProofs2 PartSpec PartModel PartProofs4 CellTable UmModel UmSpec UmProofs UmProofs2 UmProofs8 UmProofs10 UcModel UcSpec UcProofs UcProofs2 UcProofs3 UcProofs4 UcProofs5.
Local Open Scope Z_scope.

Lemma policy_app p A B : policy_for p A -> policy_for p B -> policy_for p (A ++ B).
Proof. intros [H1 H2] [_ H3]. split; [done|]. intros E c [Hc|Hc]%elem_of_app; auto. Qed.
Lemma with_app A B : with_nodes A -> with_nodes B -> with_nodes (A ++ B).
Proof. intros H1 H2 c [Hc|Hc]%elem_of_app; auto. Qed.
Lemma used_app A B v : used (A ++ B) v -> used A v \/ used B v.
Proof. intros (H0 & c & [Hc|Hc]%elem_of_app & Hv); [left|right]; (split; [done|]); exists c; done. Qed.
Lemma used_concat css v : used (concat css) v -> exists cs, cs ∈ css /\ used cs v.
Proof. intros (H0 & c & Hc & Hv). apply elem_of_list_In, in_concat in Hc as (cs & H1 & H2). exists cs. split; [by apply elem_of_list_In|]. split; [done|]. exists c. split; [by apply elem_of_list_In|done]. Qed.

Lemma included_ok m other A B nb p : stores m A -> stores other B -> um_dim other = um_dim m -> -1 <= um_dim m -> has_nodes m nb -> (forall v, used A v -> v < nb) -> (forall v, used B v -> v < nb) ->
  with_nodes A -> with_nodes B -> policy_for p A -> policy_for p B -> p <> 3 -> A <> [] -> B <> [] ->
  exists b a, areCellsIncludedIn m other true p = Ok (b, a) /\ found_in p A B b a.
Proof.
  intros HA HB Hdim Hd Hn HuA HuB HwA HwB HpA HpB H3 HA0 HB0.
  destruct (on_same_ok (um_dim m) m [other] [A; B] Hd) as (mesh & E & Hs & _ & Hdm & Hco); [constructor; [done|]; constructor; [done|constructor]|]. cbn [concat] in Hs. rewrite app_nil_r in Hs.
  unfold areCellsIncludedIn. rewrite E. cbn [bind]. rewrite (numCells_ok m A HA). cbn [bind]. assert (Hp03 : 0 <= p <= 3) by apply HpA. replace (negb _) with false by lia. cbn [ifthrow]. rewrite (numCells_ok other B HB). cbn [bind].
  pose proof (zlen_nonneg A). pose proof (zlen_nonneg B). assert (0 < zlen B) as HBp by (destruct B as [|? B']; [done|rewrite zlen_cons; pose proof (zlen_nonneg B'); lia]). replace (zlen B =? 0) with false by lia.
  destruct (common_cells_ok mesh (A ++ B) nb p (zlen A)) as (gs & c & cI & Ec & Hsky & Hg); [done| |intros v [|]%used_app; auto|lia|by apply policy_app|by apply with_app|done|].
  { unfold has_nodes in *. rewrite Hco. done. }
  rewrite Ec. cbn [bind]. rewrite (numCells_ok mesh _ Hs). cbn [bind]. destruct (conv_ok p (zlen A) (A ++ B) gs c cI Hg Hsky) as (r & K & Eo & HK & HQ). rewrite Eo. cbn [bind]. rewrite initialised_ok. cbn [bind].
  assert (Hrl : zlen r = zlen A + zlen B) by (destruct HQ as (Hl & _); rewrite zlen_app in Hl; done). destruct (split_len r (zlen A) ltac:(lia)) as (p0 & p2 & Er & Hp0). assert (Hr0 : range r 0 (zlen A) = Ok p0) by (rewrite Er, <- Hp0; apply range_front). rewrite Hr0. cbn [bind].
  destruct p0 as [|x p0']; [destruct A as [|? A']; [done|rewrite zlen_nil, zlen_cons in Hp0; pose proof (zlen_nonneg A'); lia]|]. destruct (max_ok x p0') as (mx & Em & Hmx & Hmax). rewrite Em. cbn [bind]. set (p0 := x :: p0') in *.
  destruct (inverse_ok p A B r p0 p2 K HQ Er Hp0 mx Hmx Hmax) as (q & a & E1 & E2 & Hf).
  destruct (invertArrayO2N2N2O (vec p0) K) as [p1| | |]; cbn [bind] in E1 |- *; try done. rewrite E1. cbn [bind]. rewrite initialised_ok. cbn [bind]. assert (Hr2 : range r (zlen A) (zlen (A ++ B)) = Ok p2) by (rewrite Er, <- Hp0; apply range_back; rewrite zlen_app; pose proof (p2_len p A B r p0 p2 K HQ Er Hp0); lia). rewrite Hr2. cbn [bind]. rewrite E2. cbn [bind]. eauto.
Qed.
Lemma included_empty m other A p : stores m A -> stores other [] -> um_dim other = um_dim m -> -1 <= um_dim m -> 0 <= p <= 2 -> areCellsIncludedIn m other true p = Ok (true, []).
Proof.
  intros HA HB Hdim Hd Hp. destruct (on_same_ok (um_dim m) m [other] [A; []] Hd) as (mesh & E & _); [constructor; [done|]; constructor; [done|constructor]|].
  unfold areCellsIncludedIn. rewrite E. cbn [bind]. rewrite (numCells_ok m A HA). cbn [bind]. replace (negb _) with false by lia. cbn [ifthrow]. rewrite (numCells_ok other _ HB). done.
Qed.

(** Cut of an array by lengths. *)
Lemma cut_ok ms css r : Forall2 stores ms css -> zlen r = zlen (concat css) ->
  exists corr, foldM (fun '(corr, offset) m =>
    let* curNbOfCells := getNumberOfCells m in
    let* tmp := range r offset (offset + curNbOfCells) in
    Ok (corr ++ [tmp], offset + curNbOfCells)) ms ([], 0) = Ok (corr, zlen r) /\ concat corr = r /\ zlen <$> corr = zlen <$> css.
Proof.
  intros HF. assert (G : forall done rest corr, r = done ++ rest -> zlen rest = zlen (concat css) -> exists corr', foldM (fun '(corr, offset) m =>
    let* curNbOfCells := getNumberOfCells m in
    let* tmp := range r offset (offset + curNbOfCells) in
    Ok (corr ++ [tmp], offset + curNbOfCells)) ms (corr, zlen done) = Ok (corr ++ corr', zlen r) /\ concat corr' = rest /\ zlen <$> corr' = zlen <$> css).
  { induction HF as [|m cs ms css Hs HF IH]; intros dn rest corr Er Hl.
    - destruct rest as [|x rest]; [|cbn [concat] in Hl; rewrite zlen_nil, zlen_cons in Hl; pose proof (zlen_nonneg rest); lia]. rewrite app_nil_r in Er. exists []. cbn [foldM]. rewrite app_nil_r, Er. done.
    - cbn [foldM]. rewrite (numCells_ok m cs Hs). cbn [bind]. cbn [concat] in Hl. rewrite zlen_app in Hl. pose proof (zlen_nonneg cs). pose proof (zlen_nonneg (concat css)). destruct (split_len rest (zlen cs) ltac:(lia)) as (a & b & -> & Ha).
      pose proof (range_mid dn a b) as Hr. rewrite <- Er, Ha in Hr. rewrite Hr. cbn [bind]. rewrite zlen_app in Hl. destruct (IH (dn ++ a) b (corr ++ [a])) as (corr' & E & E1 & E2); [by rewrite <- app_assoc|lia|]. rewrite zlen_app, Ha in E. rewrite E. exists (a :: corr'). rewrite <- app_assoc. split; [done|]. cbn [concat]. rewrite E1. split; [done|]. rewrite !fmap_cons, E2, Ha. done. }
  intros Hl. destruct (G [] r [] eq_refl Hl) as (corr & E & H). exists corr. done.
Qed.
Lemma fuse_ok m0 ms css nb p : 0 <= um_dim m0 -> Forall2 (fun m cs => stores m cs /\ um_dim m = um_dim m0) (m0 :: ms) css -> has_nodes m0 nb ->
  (forall cs v, cs ∈ css -> used cs v -> v < nb) -> (forall cs, cs ∈ css -> with_nodes cs) -> (forall cs, cs ∈ css -> policy_for p cs) ->
  exists m' corr K new, FuseUMeshesOnSameCoords (m0 :: ms) true p = Ok (m', corr) /\ quotient p 0 (concat css) (concat corr) K /\ zlen <$> corr = zlen <$> css /\
    stores m' new /\ typed m' new /\ um_dim m' = um_dim m0 /\ um_coords m' = um_coords m0 /\ zlen new = K /\ kept_last (concat css) new (concat corr).
Proof.
  intros Hd HF Hn Hu Hw Hp. destruct (on_same_ok (um_dim m0) m0 ms css ltac:(lia) HF) as (mesh & E & Hs & _ & Hdm & Hco).
  destruct (zip_ok mesh (concat css) nb p 0) as (m' & r & K & new & Ez & HQ & H1 & H2 & H3 & H4 & H5 & H6).
  - done.
  - unfold has_nodes in *. rewrite Hco. done.
  - intros v Hv. apply used_concat in Hv as (cs & Hcs & Hv). by eapply Hu.
  - lia.
  - split; [inversion HF as [|? cs ? ? _ _]; subst; apply (Hp cs); left|]. intros Ep c Hc. apply elem_of_list_In, in_concat in Hc as (cs & Hcs & Hc). rewrite <- !elem_of_list_In in *. destruct (Hp cs Hcs) as [_ Hp']. by apply Hp'.
  - intros c Hc. apply elem_of_list_In, in_concat in Hc as (cs & Hcs & Hc). rewrite <- !elem_of_list_In in *. by apply (Hw cs).
  - lia.
  - unfold FuseUMeshesOnSameCoords. rewrite E. cbn [bind]. rewrite Ez. cbn [bind]. destruct (cut_ok (m0 :: ms) css r) as (corr & Ec & E1 & E2); [eapply Forall2_impl; [exact HF|]; by intros ? ? [? _]|apply HQ|]. rewrite Ec. cbn [bind]. exists m', corr, K, new. rewrite E1, Hdm in *. rewrite Hco in H4. split; [done|]. split; [done|]. split; [done|]. split; [done|]. done.
Qed.

(** * What the claims do not allow *)
Definition mk (d nb : Z) (cells : list cell) : umesh :=
  UM d (Some (DA true 1 (replicate (Z.to_nat nb) 0%Q))) (Some (concat (pk <$> cells))) (Some (psums (lens cells))) (typesOf cells).
Lemma mk_ok d nb cells : 0 <= nb -> stores (mk d nb cells) cells /\ typed (mk d nb cells) cells /\ has_nodes (mk d nb cells) nb.
Proof.
  intros Hnb. split; [apply stores_sel|]. split; [by apply typed_types|]. eexists. split; [reflexivity|]. split; [done|]. split; [split; [done|exists nb; cbn; rewrite zlen_replicate; lia]|]. unfold da_nt. cbn. rewrite Z.quot_1_r, zlen_replicate. lia.
Qed.
(** Policy 0: the types are not compared. *)
Lemma policy0_types : exists m, stores m [(NORM_QUAD4, [0; 1; 2; 3]); (NORM_POLYGON, [0; 1; 2; 3])] /\ has_nodes m 4 /\ findCommonCells m 0 0 = Ok ([0; 1], [0; 2]) /\ findCommonCells m 2 0 = Ok ([], [0]).
Proof. exists (mk 2 4 [(NORM_QUAD4, [0; 1; 2; 3]); (NORM_POLYGON, [0; 1; 2; 3])]). destruct (mk_ok 2 4 [(NORM_QUAD4, [0; 1; 2; 3]); (NORM_POLYGON, [0; 1; 2; 3])] ltac:(lia)) as (H1 & _ & H2). split; [done|]. split; [done|]. split; vm_compute; reflexivity. Qed.
(** Policy 1 on a quadratic triangle. *)
Lemma policy1_quadratic : exists m m', stores m [(NORM_TRI6, [0; 1; 2; 3; 4; 5]); (NORM_TRI6, [1; 2; 0; 4; 5; 3])] /\ has_nodes m 6 /\ findCommonCells m 1 0 = Ok ([], [0]) /\
  stores m' [(NORM_TRI6, [0; 1; 2; 3; 4; 5]); (NORM_TRI6, [1; 2; 3; 4; 5; 0])] /\ has_nodes m' 6 /\ findCommonCells m' 1 0 = Ok ([0; 1], [0; 2]).
Proof.
  exists (mk 2 6 [(NORM_TRI6, [0; 1; 2; 3; 4; 5]); (NORM_TRI6, [1; 2; 0; 4; 5; 3])]), (mk 2 6 [(NORM_TRI6, [0; 1; 2; 3; 4; 5]); (NORM_TRI6, [1; 2; 3; 4; 5; 0])]).
  destruct (mk_ok 2 6 [(NORM_TRI6, [0; 1; 2; 3; 4; 5]); (NORM_TRI6, [1; 2; 0; 4; 5; 3])] ltac:(lia)) as (H1 & _ & H2). destruct (mk_ok 2 6 [(NORM_TRI6, [0; 1; 2; 3; 4; 5]); (NORM_TRI6, [1; 2; 3; 4; 5; 0])] ltac:(lia)) as (H3 & _ & H4).
  split; [done|]. split; [done|]. split; [vm_compute; reflexivity|]. split; [done|]. split; [done|]. vm_compute; reflexivity.
Qed.
(** One polyhedron is found equal to itself. *)
Definition tetra : cell := (NORM_POLYHED, [0; 1; 2; -1; 0; 1; 3; -1; 1; 2; 3; -1; 2; 0; 3]).
Lemma polyhedron_itself : exists m, stores m [tetra] /\ has_nodes m 4 /\ findCommonCells m 0 0 = Ok ([0; 0; 0], [0; 3]) /\ findCommonCells m 1 0 = Throw.
Proof. exists (mk 3 4 [tetra]). destruct (mk_ok 3 4 [tetra] ltac:(lia)) as (H1 & _ & H2). split; [done|]. split; [done|]. split; vm_compute; reflexivity. Qed.
(** Policy 7. *)
Lemma policy7_wrong : exists m m' r, stores m [(NORM_SEG2, [0; 1]); (NORM_SEG2, [1; 0])] /\ has_nodes m 2 /\ findCommonCells m 7 0 = UB /\
  stores m' [(NORM_SEG2, [0; 1]); (NORM_SEG2, [1; 0]); (NORM_SEG2, [2; 3])] /\ has_nodes m' 4 /\ zipConnectivityTraducer m' 7 0 = Ok (r, [0; 1; 0]) /\ stores r [(NORM_SEG2, [2; 3]); (NORM_SEG2, [1; 0])].
Proof.
  exists (mk 1 2 [(NORM_SEG2, [0; 1]); (NORM_SEG2, [1; 0])]), (mk 1 4 [(NORM_SEG2, [0; 1]); (NORM_SEG2, [1; 0]); (NORM_SEG2, [2; 3])]), (mk 1 4 [(NORM_SEG2, [2; 3]); (NORM_SEG2, [1; 0])]).
  destruct (mk_ok 1 2 [(NORM_SEG2, [0; 1]); (NORM_SEG2, [1; 0])] ltac:(lia)) as (H1 & _ & H2). destruct (mk_ok 1 4 [(NORM_SEG2, [0; 1]); (NORM_SEG2, [1; 0]); (NORM_SEG2, [2; 3])] ltac:(lia)) as (H3 & _ & H4).
  destruct (mk_ok 1 4 [(NORM_SEG2, [2; 3]); (NORM_SEG2, [1; 0])] ltac:(lia)) as (H5 & _ & _).
  split; [done|]. split; [done|]. split; [vm_compute; reflexivity|]. split; [done|]. split; [done|]. split; [vm_compute; reflexivity|done].
Qed.
Lemma policy7_included : exists m, stores m [(NORM_TRI3, [0; 1; 2])] /\ has_nodes m 3 /\ areCellsIncludedInPolicy7 m m true = Ok (false, None).
Proof. exists (mk 2 3 [(NORM_TRI3, [0; 1; 2])]). destruct (mk_ok 2 3 [(NORM_TRI3, [0; 1; 2])] ltac:(lia)) as (H1 & _ & H2). split; [done|]. split; [done|]. vm_compute. reflexivity. Qed.
(** Policy 9: overlapping groups. *)
Definition arcs : list cell := [(NORM_SEG3, [0; 1; 5]); (NORM_SEG3, [0; 1; 6]); (NORM_SEG3, [0; 1; 5]); (NORM_SEG3, [0; 1; 7])].
Lemma policy9_overlap : exists m, stores m arcs /\ has_nodes m 8 /\ findCommonCells m 9 0 = Ok ([0; 1; 3; 2; 3], [0; 3; 5]).
Proof. exists (mk 1 8 arcs). destruct (mk_ok 1 8 arcs ltac:(lia)) as (H1 & _ & H2). split; [done|]. split; [done|]. vm_compute. reflexivity. Qed.
(** A cell that is not in the mesh gets the number of one of its cells. *)
Lemma missing_cell : exists m other, stores m [(NORM_TRI3, [0; 1; 2]); (NORM_TRI3, [0; 1; 2])] /\ has_nodes m 4 /\ stores other [(NORM_TRI3, [0; 1; 2]); (NORM_TRI3, [1; 2; 3])] /\ has_nodes other 4 /\
  areCellsIncludedIn m other true 2 = Ok (false, [1; 1]).
Proof.
  exists (mk 2 4 [(NORM_TRI3, [0; 1; 2]); (NORM_TRI3, [0; 1; 2])]), (mk 2 4 [(NORM_TRI3, [0; 1; 2]); (NORM_TRI3, [1; 2; 3])]).
  destruct (mk_ok 2 4 [(NORM_TRI3, [0; 1; 2]); (NORM_TRI3, [0; 1; 2])] ltac:(lia)) as (H1 & _ & H2). destruct (mk_ok 2 4 [(NORM_TRI3, [0; 1; 2]); (NORM_TRI3, [1; 2; 3])] ltac:(lia)) as (H3 & _ & H4).
  split; [done|]. split; [done|]. split; [done|]. split; [done|]. vm_compute. reflexivity.
Qed.
(** A mesh without cells. *)
Lemma empty_mesh : exists m other, stores m [] /\ has_nodes m 3 /\ stores other [(NORM_TRI3, [0; 1; 2])] /\ has_nodes other 3 /\ areCellsIncludedIn m other true 2 = Throw.
Proof.
  exists (mk 2 3 []), (mk 2 3 [(NORM_TRI3, [0; 1; 2])]). destruct (mk_ok 2 3 [] ltac:(lia)) as (H1 & _ & H2). destruct (mk_ok 2 3 [(NORM_TRI3, [0; 1; 2])] ltac:(lia)) as (H3 & _ & H4).
  split; [done|]. split; [done|]. split; [done|]. split; [done|]. vm_compute. reflexivity.
Qed.
(** * Cases that meet the hypotheses *)
Definition tris : list cell := [(NORM_TRI3, [0; 1; 2]); (NORM_TRI3, [1; 2; 3]); (NORM_TRI3, [2; 0; 1]); (NORM_QUAD4, [0; 1; 3; 2]); (NORM_TRI3, [2; 1; 0])].
Lemma list5 {X} (P : X -> Prop) a b c d e : P a -> P b -> P c -> P d -> P e -> forall x, x ∈ [a; b; c; d; e] -> P x.
Proof. intros ? ? ? ? ? x. rewrite !elem_of_cons, elem_of_nil. intros [->|[->|[->|[->|[->|[]]]]]]; done. Qed.
Lemma nodes_nonneg (c : cell) n l : c.2 = n :: l -> (forallb (fun v => 0 <=? v) (n :: l) = true) -> (exists n, n ∈ c.2 /\ 0 <= n) /\ forall n, n ∈ c.2 -> -1 <= n.
Proof.
  intros E H. rewrite forallb_forall in H. rewrite E. split.
  - exists n. split; [left|]. assert (In n (n :: l)) as Hi by (cbn; auto). apply H in Hi. lia.
  - intros x Hx. apply elem_of_list_In in Hx. apply H in Hx. lia.
Qed.
Lemma tris_nodes : with_nodes tris.
Proof. unfold with_nodes. apply list5; (eapply nodes_nonneg; [reflexivity|reflexivity]). Qed.
Lemma tris_policy p : 0 <= p <= 3 -> policy_for p tris.
Proof. intros Hp. split; [done|]. intros _. apply list5; (eexists; split; [reflexivity|done]). Qed.
Lemma list_le (l : list Z) b : forallb (fun v => v <? b) l = true -> forall v, v ∈ l -> v < b.
Proof. rewrite forallb_forall. intros H v Hv. apply elem_of_list_In in Hv. apply H in Hv. lia. Qed.
Lemma tris_used v : used tris v -> v < 4.
Proof. intros (_ & c & Hc & Hv). revert c Hc Hv. apply (list5 (fun c : cell => v ∈ c.2 -> v < 4)); apply list_le; reflexivity. Qed.
