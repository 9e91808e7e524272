(** Proofs: solid cells, from the finitely many cases to all the cells. *)
From Coq Require Import QArith ZifyBool ZifyNat.
From Verif Require Import Base DataArray CellTable CellModel UmModel UmSpec IndexSpec FillLib DgModel DgSpec DgProofs DgProofs2 DgProofs3.
Local Open Scope Z_scope.

Lemma hc_inj h (Hi : Inj (=) (=) h) : Inj (=) (=) (hc h).
Proof. intros [a l] [b k] E. unfold hc in E. simpl in E. injection E as -> E. by apply (fmap_h_inj h Hi) in E as ->. Qed.
Lemma rmap_inv {A B} (f : A -> B) r y : rmap f r = Ok y -> exists x, r = Ok x /\ f x = y.
Proof. destruct r; try done. simpl. intros [= <-]. eauto. Qed.

Lemma good_all t l : t ∈ [NORM_TETRA4; NORM_PYRA5; NORM_PENTA6; NORM_HEXA8] -> zlen l = size_of t -> l ∈ pats (length l) 0 -> goodb t l = true.
Proof.
  intros Ht Hl Hp. assert (length l = Z.to_nat (size_of t)) as E by (unfold zlen in Hl; lia). rewrite E in Hp. clear E Hl. apply elem_of_list_In in Hp.
  apply elem_of_cons in Ht as [->|Ht]; [exact (proj1 (forallb_forall _ _) good_tetra l Hp)|].
  apply elem_of_cons in Ht as [->|Ht]; [exact (proj1 (forallb_forall _ _) good_pyra l Hp)|].
  apply elem_of_cons in Ht as [->|Ht]; [exact (proj1 (forallb_forall _ _) good_penta l Hp)|].
  apply elem_of_cons in Ht as [->|Ht]; [exact (proj1 (forallb_forall _ _) good_hexa l Hp)|]. by apply elem_of_nil in Ht.
Qed.
Lemma solid_model t : t ∈ [NORM_TETRA4; NORM_PYRA5; NORM_PENTA6; NORM_HEXA8; NORM_HEXGP12; NORM_POLYHED] -> exists c, GetCellModel t = Ok c /\ cm_dim c = 3.
Proof.
  intros Ht. repeat (apply elem_of_cons in Ht as [->|Ht]; [eexists; split; [unfold GetCellModel; reflexivity|reflexivity]|]). by apply elem_of_nil in Ht.
Qed.

Lemma solid_ok t l : t ∈ [NORM_TETRA4; NORM_PYRA5; NORM_PENTA6; NORM_HEXA8] -> zlen l = size_of t -> (forall n, n ∈ l -> 0 <= n) ->
  (t = NORM_HEXA8 -> forall f, f ∈ solid_faces (t, l) -> ~ pinched f) ->
  (true_faces (t, l) = [] -> simplifyDegeneratedCell t l = UB) /\
  (true_faces (t, l) <> [] -> exists c', simplifyDegeneratedCell t l = Ok c' /\ same_faces (solid_faces c') (true_faces (t, l)) /\
    (NoDup l -> c' = (t, l)) /\ (c'.1 <> NORM_POLYHED -> NoDup c'.2 /\ zlen c'.2 = size_of c'.1)).
Proof.
  intros Ht Hl Hp Hpin. destruct (renamed l Hp) as (h & Hi & Hm & Hs & Hpat).
  assert (zlen (h <$> l) = zlen l) as Hz by (unfold zlen; by rewrite fmap_length).
  assert (goodb t (h <$> l) = true) as Hg. { apply good_all; [done|lia|by rewrite fmap_length]. }
  destruct (solid_model t ltac:(set_solver)) as (k & Hk & Hd).
  pose proof (simplify_h h Hi Hm Hs t k l Hk Hd) as Hsim.
  assert (NoDup l -> simplifyDegeneratedCell t l = Ok (t, l)) as Hnd.
  { intros Hn. unfold simplifyDegeneratedCell. rewrite Hk. cbn [bind]. rewrite size_nodup by done. rewrite bool_decide_eq_true_2 by done. by rewrite orb_true_r. }
  change (t, l) with (t, l) in *. unfold goodb in Hg. change (t, h <$> l) with (hc h (t, l)) in Hg. rewrite (faces_h h Hi Hm), (true_h h Hi Hm) in Hg.
  assert (((t =? NORM_HEXA8) && existsb pinchedb (fmap (M := list) h <$> solid_faces (t, l))) = false) as E.
  { destruct (Z.eqb_spec t NORM_HEXA8) as [->|]; [|done]. rewrite andb_true_l. apply not_true_iff_false. intros E. apply existsb_exists in E as (f & E1 & E2). apply elem_of_list_In, elem_of_list_fmap in E1 as (f0 & -> & E1).
    apply pinchedb_ok in E2. apply (proj1 (pinched_h h Hi f0)) in E2. exact (Hpin eq_refl f0 E1 E2). }
  rewrite E in Hg. clear E. cbn [orb] in Hg. rewrite Hsim in Hg. destruct (true_faces (t, l)) as [|f F] eqn:EF.
  - split; [intros _|done]. rewrite fmap_nil in Hg. by destruct (simplifyDegeneratedCell t l).
  - split; [done|intros _]. rewrite fmap_cons in Hg. destruct (simplifyDegeneratedCell t l) as [c'| | |]; try done. exists c'. split; [done|]. cbn [rmap] in Hg. apply andb_prop in Hg as [Hg1 Hg2].
    split; [|split].
    + apply sameb_ok in Hg1. rewrite (faces_h h Hi Hm) in Hg1. rewrite <- fmap_cons in Hg1. by apply (same_h h Hi) in Hg1.
    + intros Hn. specialize (Hnd Hn). by injection Hnd.
    + intros Hne. simpl in Hg2. apply orb_prop in Hg2 as [Hg2|Hg2]; [lia|]. apply andb_prop in Hg2 as [Hg2 Hg3]. apply bool_decide_eq_true in Hg2. split.
      * by apply NoDup_fmap_1 in Hg2.
      * unfold zlen in *. rewrite fmap_length in Hg3. lia.
Qed.

(** * Cells given by their pattern *)
Definition pick (d p : list Z) : list Z := omap (fun i => d @ i) p.
Lemma newName_look d i x : NoDup d -> d @ i = Some x -> newName d x = i.
Proof.
  intros Hn Hx. unfold newName. destruct (findPos x d) as [k|] eqn:E.
  - apply findPos_lt in E. pose proof (zlook_Some_lt _ _ _ Hx). pose proof (zlook_Some_lt _ _ _ E). rewrite zlook_to_nat in Hx by lia. rewrite zlook_to_nat in E by lia. pose proof (NoDup_lookup _ _ _ _ Hn Hx E). lia.
  - apply findPos_none in E. exfalso. apply E. by eapply zlook_elem.
Qed.
Lemma newName_pick d p : NoDup d -> (forall i, i ∈ p -> 0 <= i < zlen d \/ i = -1) -> forall (Hd : forall x, x ∈ d -> 0 <= x), newName d <$> (foldr (fun i acc => (if i =? -1 then -1 else default 0 (d @ i)) :: acc) [] p) = p.
Proof.
  intros Hn Hp Hd. induction p as [|i p IH]; [done|]. cbn [foldr]. rewrite fmap_cons, IH by set_solver. f_equal. destruct (Z.eqb_spec i (-1)) as [->|E]; [by apply newName_neg|].
  destruct (Hp i) as [Hi|]; [set_solver| |lia]. destruct (zlook_lt d i Hi) as [x Hx]. rewrite Hx. simpl. by apply newName_look.
Qed.
(** The nodes of [d] in the places of [p]. *)
Definition take_at (d p : list Z) : list Z := foldr (fun i acc => (if i =? -1 then -1 else default 0 (d @ i)) :: acc) [] p.
Lemma pattern_ok t k d p t' p' : GetCellModel t = Ok k -> cm_dim k = 3 -> NoDup d -> (forall x, x ∈ d -> 0 <= x) ->
  forallb (fun i => (0 <=? i) && (i <? zlen d) || (i =? -1)) p = true -> forallb (fun i => (0 <=? i) && (i <? zlen d) || (i =? -1)) p' = true ->
  simplifyDegeneratedCell t p = Ok (t', p') -> simplifyDegeneratedCell t (take_at d p) = Ok (t', take_at d p').
Proof.
  intros Hk Hd Hn Hp Hb Hb' E.
  pose proof (simplify_h (newName d) (newName_inj d Hp) (newName_neg d Hp (-1) ltac:(lia)) (newName_sign d Hp) t k (take_at d p) Hk Hd) as S.
  unfold take_at in S at 1. rewrite newName_pick, E in S; [|done| |done].
  2:{ intros i Hi. rewrite forallb_forall in Hb. apply elem_of_list_In, Hb in Hi. lia. }
  symmetry in S. apply rmap_inv in S as (x & -> & S). f_equal. apply (hc_inj (newName d) (newName_inj d Hp)). rewrite S. unfold hc. simpl. f_equal. symmetry. apply newName_pick; [done| |done].
  intros i Hi. rewrite forallb_forall in Hb'. apply elem_of_list_In, Hb' in Hi. lia.
Qed.

Lemma take_at_seq (d : list Z) : take_at d (seqZ 0 (zlen d)) = d.
Proof.
  assert (forall (e : list Z) k, 0 <= k -> (forall i x, e @ i = Some x -> d @ (k + i) = Some x) -> take_at d (seqZ k (zlen e)) = e) as E; [|apply E; [lia|done]].
  induction e as [|a e IH]; intros k Hk He; [done|]. assert (zlen (a :: e) = zlen e + 1) as -> by (unfold zlen; simpl; lia). pose proof (zlen_nonneg e). rewrite seqZ_cons by lia. unfold take_at. cbn [foldr]. fold (take_at d (seqZ (Z.succ k) (Z.pred (zlen e + 1)))).
  replace (Z.pred (zlen e + 1)) with (zlen e) by lia. rewrite IH.
  - pose proof (He 0 a eq_refl) as H0. rewrite Z.add_0_r in H0. rewrite H0. destruct (Z.eqb_spec k (-1)); [lia|done].
  - lia.
  - intros i x Hx. pose proof (zlook_Some_lt _ _ _ Hx). replace (Z.succ k + i) with (k + (i + 1)) by lia. apply He. rewrite zlook_cons. destruct (Z.eqb_spec (i + 1) 0); [lia|]. by replace (i + 1 - 1) with i by lia.
Qed.
Lemma back_one t l p k : GetCellModel NORM_POLYHED = Ok k -> cm_dim k = 3 -> NoDup l -> (forall n, n ∈ l -> 0 <= n) ->
  joined (solid_faces (t, l)) = take_at l p -> forallb (fun i => (0 <=? i) && (i <? zlen l) || (i =? -1)) p = true ->
  simplifyDegeneratedCell NORM_POLYHED p = Ok (t, seqZ 0 (zlen l)) -> simplifyDegeneratedCell NORM_POLYHED (joined (solid_faces (t, l))) = Ok (t, l).
Proof.
  intros Hk Hd Hn Hp E1 Hb E2. rewrite E1. rewrite <- (take_at_seq l) at 2. eapply pattern_ok; try done.
  apply forallb_forall. intros i Hi. apply elem_of_list_In, elem_of_seqZ in Hi. lia.
Qed.
Lemma len_nat (l : list Z) n : zlen l = n -> length l = Z.to_nat n.
Proof. unfold zlen. lia. Qed.
Lemma polyhedron_back t l : t ∈ [NORM_TETRA4; NORM_PYRA5; NORM_PENTA6; NORM_HEXA8; NORM_HEXGP12] -> zlen l = size_of t -> (forall n, n ∈ l -> 0 <= n) -> NoDup l ->
  simplifyDegeneratedCell NORM_POLYHED (joined (solid_faces (t, l))) = Ok (t, l).
Proof.
  intros Ht Hl Hp Hn. destruct (solid_model NORM_POLYHED ltac:(set_solver)) as (k & Hk & Hd).
  apply elem_of_cons in Ht as [->|Ht].
  { pose proof (len_nat _ _ Hl) as Hl'. destruct l as [|? [|? [|? [|? [|]]]]]; try discriminate Hl'.
    eapply (back_one _ _ (joined (solid_faces (NORM_TETRA4, seqZ 0 4)))); [exact Hk|done|done|done|reflexivity|reflexivity|vm_compute; reflexivity]. }
  apply elem_of_cons in Ht as [->|Ht].
  { pose proof (len_nat _ _ Hl) as Hl'. destruct l as [|? [|? [|? [|? [|? [|]]]]]]; try discriminate Hl'.
    eapply (back_one _ _ (joined (solid_faces (NORM_PYRA5, seqZ 0 5)))); [exact Hk|done|done|done|reflexivity|reflexivity|vm_compute; reflexivity]. }
  apply elem_of_cons in Ht as [->|Ht].
  { pose proof (len_nat _ _ Hl) as Hl'. destruct l as [|? [|? [|? [|? [|? [|? [|]]]]]]]; try discriminate Hl'.
    eapply (back_one _ _ (joined (solid_faces (NORM_PENTA6, seqZ 0 6)))); [exact Hk|done|done|done|reflexivity|reflexivity|vm_compute; reflexivity]. }
  apply elem_of_cons in Ht as [->|Ht].
  { pose proof (len_nat _ _ Hl) as Hl'. destruct l as [|? [|? [|? [|? [|? [|? [|? [|? [|]]]]]]]]]; try discriminate Hl'.
    eapply (back_one _ _ (joined (solid_faces (NORM_HEXA8, seqZ 0 8)))); [exact Hk|done|done|done|reflexivity|reflexivity|vm_compute; reflexivity]. }
  apply elem_of_cons in Ht as [->|Ht]; [|by apply elem_of_nil in Ht].
  pose proof (len_nat _ _ Hl) as Hl'. destruct l as [|? [|? [|? [|? [|? [|? [|? [|? [|? [|? [|? [|? [|]]]]]]]]]]]]]; try discriminate Hl'.
  eapply (back_one _ _ (joined (solid_faces (NORM_HEXGP12, seqZ 0 12)))); [exact Hk|done|done|done|reflexivity|reflexivity|vm_compute; reflexivity].
Qed.

(** Usual ways to degenerate. *)
Lemma hexa_pyra a b c d e : NoDup [a; b; c; d; e] -> (forall x, x ∈ [a; b; c; d; e] -> 0 <= x) -> simplifyDegeneratedCell NORM_HEXA8 [a; b; c; d; e; e; e; e] = Ok (NORM_PYRA5, [a; b; c; d; e]).
Proof.
  intros Hn Hp. destruct (solid_model NORM_HEXA8 ltac:(set_solver)) as (k & Hk & Hd).
  exact (pattern_ok NORM_HEXA8 k [a; b; c; d; e] [0; 1; 2; 3; 4; 4; 4; 4] NORM_PYRA5 [0; 1; 2; 3; 4] Hk Hd Hn Hp eq_refl eq_refl ltac:(vm_compute; reflexivity)).
Qed.
Lemma hexa_penta a b c d e f : NoDup [a; b; c; d; e; f] -> (forall x, x ∈ [a; b; c; d; e; f] -> 0 <= x) -> simplifyDegeneratedCell NORM_HEXA8 [a; b; c; d; e; f; f; e] = Ok (NORM_PENTA6, [b; f; c; a; e; d]).
Proof.
  intros Hn Hp. destruct (solid_model NORM_HEXA8 ltac:(set_solver)) as (k & Hk & Hd).
  exact (pattern_ok NORM_HEXA8 k [a; b; c; d; e; f] [0; 1; 2; 3; 4; 5; 5; 4] NORM_PENTA6 [1; 5; 2; 0; 4; 3] Hk Hd Hn Hp eq_refl eq_refl ltac:(vm_compute; reflexivity)).
Qed.
Lemma penta_tetra a b c d : NoDup [a; b; c; d] -> (forall x, x ∈ [a; b; c; d] -> 0 <= x) -> simplifyDegeneratedCell NORM_PENTA6 [a; b; c; d; d; d] = Ok (NORM_TETRA4, [a; b; c; d]).
Proof.
  intros Hn Hp. destruct (solid_model NORM_PENTA6 ltac:(set_solver)) as (k & Hk & Hd).
  exact (pattern_ok NORM_PENTA6 k [a; b; c; d] [0; 1; 2; 3; 3; 3] NORM_TETRA4 [0; 1; 2; 3] Hk Hd Hn Hp eq_refl eq_refl ltac:(vm_compute; reflexivity)).
Qed.
Lemma penta_pyra a b c d e : NoDup [a; b; c; d; e] -> (forall x, x ∈ [a; b; c; d; e] -> 0 <= x) -> simplifyDegeneratedCell NORM_PENTA6 [a; b; c; a; d; e] = Ok (NORM_PYRA5, [b; d; e; c; a]).
Proof.
  intros Hn Hp. destruct (solid_model NORM_PENTA6 ltac:(set_solver)) as (k & Hk & Hd).
  exact (pattern_ok NORM_PENTA6 k [a; b; c; d; e] [0; 1; 2; 0; 3; 4] NORM_PYRA5 [1; 3; 4; 2; 0] Hk Hd Hn Hp eq_refl eq_refl ltac:(vm_compute; reflexivity)).
Qed.
Lemma pyra_tetra a b c d : NoDup [a; b; c; d] -> (forall x, x ∈ [a; b; c; d] -> 0 <= x) -> simplifyDegeneratedCell NORM_PYRA5 [a; b; c; c; d] = Ok (NORM_TETRA4, [a; b; c; d]).
Proof.
  intros Hn Hp. destruct (solid_model NORM_PYRA5 ltac:(set_solver)) as (k & Hk & Hd).
  exact (pattern_ok NORM_PYRA5 k [a; b; c; d] [0; 1; 2; 2; 3] NORM_TETRA4 [0; 1; 2; 3] Hk Hd Hn Hp eq_refl eq_refl ltac:(vm_compute; reflexivity)).
Qed.

(** The answer may be longer than the cell: it does not fit in the connectivity. *)
Lemma one_cell m t l : um_dim m = 3 -> um_coords m <> None -> stores m [(t, l)] -> forall c', simplifyDegeneratedCell t l = Ok c' -> zlen l < zlen c'.2 -> convertDegeneratedCells m = UB.
Proof.
  intros Hdim Hco (conn & connI & Hc & HI & Hsk) c' Hs Hlt. unfold convertDegeneratedCells, checkFullyDefined, getNumberOfCells. rewrite Hc, HI. destruct (um_coords m); [|done]. rewrite Hdim. simpl ifthrow.
  assert (conn = t :: l /\ connI = [0; zlen l + 1]) as [-> ->].
  { destruct Hsk as [E1 E2]. simpl in E1. rewrite app_nil_r in E1. split; [done|]. eapply psums_unique; [exact E2|].
    change (zlen <$> ((fun c : cell => c.1 :: c.2) <$> [(t, l)])) with [zlen (t :: l)]. replace (zlen (t :: l)) with (zlen l + 1) by (unfold zlen; simpl; lia).
    pose proof (psums_snoc [] [0] (zlen l + 1) psums_nil) as P. exact P. }
  change (zlen [0; zlen l + 1] - 1) with 1. cbn [bind]. change (1 <? 1) with false. cbv iota. rewrite forZ_step by lia. cbn beta iota.
  change (rd [0; zlen l + 1] (0 + 1)) with (Ok (zlen l + 1)). change (rd (t :: l) 0) with (Ok t). cbn [bind].
  assert (rdn (t :: l) (0 + 1) (zlen l + 1 - 0 - 1) = Ok l) as ->.
  { unfold rdn, ubif, piece. pose proof (zlen_nonneg l). assert (zlen (t :: l) = zlen l + 1) by (unfold zlen; simpl; lia).
    destruct (Z.ltb_spec (zlen (t :: l)) (0 + 1 + (zlen l + 1 - 0 - 1))); [lia|]. simpl orb. cbv iota. f_equal.
    change (Z.to_nat (0 + 1)) with 1%nat. simpl drop. apply take_ge. unfold zlen. lia. }
  cbn [bind]. rewrite Hs. cbn [bind]. unfold wrn, ubif. assert (zlen (t :: l) = zlen l + 1) as E by (unfold zlen; simpl; lia). rewrite E.
  destruct (Z.ltb_spec (zlen l + 1) (0 + 1 + zlen c'.2)); [done|lia].
Qed.
Lemma hexa_overflow m a b c d e f g : um_dim m = 3 -> um_coords m <> None -> stores m [(NORM_HEXA8, [a; b; c; d; e; f; g; g])] ->
  NoDup [a; b; c; d; e; f; g] -> (forall x, x ∈ [a; b; c; d; e; f; g] -> 0 <= x) -> convertDegeneratedCells m = UB.
Proof.
  intros Hdim Hco Hst Hn Hp. destruct (solid_model NORM_HEXA8 ltac:(set_solver)) as (k & Hk & Hd).
  eapply one_cell; [done|done|exact Hst| |].
  - exact (pattern_ok NORM_HEXA8 k [a; b; c; d; e; f; g] [0; 1; 2; 3; 4; 5; 6; 6] NORM_POLYHED
      [0; 1; 2; 3; -1; 4; 6; 5; -1; 0; 4; 5; 1; -1; 1; 5; 6; 2; -1; 2; 6; 3; -1; 3; 6; 4; 0] Hk Hd Hn Hp eq_refl eq_refl ltac:(vm_compute; reflexivity)).
  - done.
Qed.
Lemma tetra_overflow m a b c : um_dim m = 3 -> um_coords m <> None -> stores m [(NORM_TETRA4, [a; b; c; c])] ->
  NoDup [a; b; c] -> (forall x, x ∈ [a; b; c] -> 0 <= x) -> convertDegeneratedCells m = UB.
Proof.
  intros Hdim Hco Hst Hn Hp. destruct (solid_model NORM_TETRA4 ltac:(set_solver)) as (k & Hk & Hd).
  eapply one_cell; [done|done|exact Hst| |].
  - exact (pattern_ok NORM_TETRA4 k [a; b; c] [0; 1; 2; 2] NORM_POLYHED [0; 1; 2; -1; 0; 2; 1] Hk Hd Hn Hp eq_refl eq_refl ltac:(vm_compute; reflexivity)).
  - done.
Qed.
(** A face folded on itself: the code makes another cell. *)
Lemma hexa_wrong : exists l c', zlen l = 8 /\ (forall n, n ∈ l -> 0 <= n) /\ simplifyDegeneratedCell NORM_HEXA8 l = Ok c' /\ ~ same_faces (solid_faces c') (true_faces (NORM_HEXA8, l)).
Proof.
  exists [0; 0; 1; 1; 0; 2; 0; 3]. eexists. split; [done|]. split; [intros n Hn; repeat (apply elem_of_cons in Hn as [->|Hn]; [lia|]); by apply elem_of_nil in Hn|]. split; [vm_compute; reflexivity|].
  match goal with |- ~ same_faces ?a ?b => let x := eval vm_compute in a in let y := eval vm_compute in b in change a with x; change b with y end.
  intros (G & HP & HF).
  assert (exists g, g ∈ G /\ turned [3; 1; 2] g) as (g & Hg & k & E).
  { repeat (apply Forall2_cons_inv_l in HF as (? & ? & ? & HF & ->)). eexists. split; [|eassumption]. set_solver. }
  assert (1 ∈ g /\ 2 ∈ g /\ 3 ∈ g) as (H1 & H2 & H3).
  { assert (g ≡ₚ [3; 1; 2]) as P by (rewrite E, (Permutation_app_comm (drop k _)), take_drop; done). rewrite P. set_solver. }
  rewrite HP in Hg. repeat (apply elem_of_cons in Hg as [->|Hg]; [exfalso; set_solver|]). by apply elem_of_nil in Hg.
Qed.
