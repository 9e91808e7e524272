(** Fields on the mesh of triangles and quadrangles of TyExamples. *)
From Coq Require Import QArith Qabs ZifyBool ZifyNat.
From Verif Require Import Base DataArray IndexSpec RenumSpec SlicesSpec CellTable UmModel UmSpec UmProofs5 UcProofs6 TyExamples GlModel GlSpec GlExamples FdModel FdSpec FdProofs FdProofs2.
Local Open Scope Z_scope.

Definition gauss_field : field Z := FD (GaussPt all_set) mixed [Some (DA true 1 [10; 20; 30; 31; 32; 40; 50]); None].
Definition gauss_sizes : list Z := [1; 1; 3; 1; 1].
Definition ne_field : field Z := FD GaussNE mixed [Some (DA true 1 [0; 1; 2; 10; 11; 12; 13; 20; 21; 22; 30; 31; 32; 40; 41; 42; 43])].
Definition ne_sizes : list Z := [3; 4; 3; 3; 4].
Definition cell_field : field Z := FD P0 mixed [Some (DA true 2 [1; 2; 3; 4; 5; 6; 7; 8; 9; 10])].
Definition node_field : field Q := FD P1 mixed [Some (DA true 1 [0; 1; 2; 3; 4; 5]%Q)].
Lemma sized_list {A} (l : list A) nc n : 0 < nc -> 0 <= n -> zlen l = n * nc -> sized (DA true nc l) n.
Proof. intros H1 H2 H3. split; [done|]. split; [split; [cbn; lia|by exists n]|]. split; [done|]. unfold da_nt. cbn [da_nc da_vals]. rewrite H3. replace (nc =? 0) with false by lia. apply Z.quot_mul. lia. Qed.
Lemma gauss_carries : carries gauss_field mixed_cells gauss_sizes.
Proof.
  split; [exact mixed_stores|]. split.
  - exists [0; 2; 1; 0; 2]. split; [done|]. split; [done|]. repeat (constructor; [eexists; split; [reflexivity|done]|]). constructor.
  - intros a Ha. cbn [gauss_field fd_arrs] in Ha. apply elem_of_cons in Ha as [[= ->]|Ha]; [by apply sized_list|]. apply elem_of_list_singleton in Ha. done.
Qed.
Lemma ne_carries : carries ne_field mixed_cells ne_sizes.
Proof.
  split; [exact mixed_stores|]. split.
  - repeat (constructor; [eexists; split; [vm_compute; reflexivity|done]|]). constructor.
  - intros a Ha. cbn [ne_field fd_arrs] in Ha. apply elem_of_list_singleton in Ha. injection Ha as ->. by apply sized_list.
Qed.
Lemma cell_carries : carries cell_field mixed_cells [1; 1; 1; 1; 1].
Proof.
  split; [exact mixed_stores|]. split; [done|]. intros a Ha. cbn [cell_field fd_arrs] in Ha. apply elem_of_list_singleton in Ha. injection Ha as ->. by apply sized_list.
Qed.
Lemma mixed_whole c : c ∈ mixed_cells -> whole c.
Proof. intros Hc k Hk _. unfold mixed_cells in Hc. repeat (apply elem_of_cons in Hc as [->|Hc]; [vm_compute in Hk; injection Hk as <-; done|]). by apply elem_of_nil in Hc. Qed.
Lemma mixed_used n : used mixed_cells n -> n < 6.
Proof. intros (_ & c & Hc & Hn). unfold mixed_cells in Hc. repeat (apply elem_of_cons in Hc as [->|Hc]; [cbn [snd] in Hn; repeat (apply elem_of_cons in Hn as [->|Hn]; [lia|]); by apply elem_of_nil in Hn|]). by apply elem_of_nil in Hc. Qed.
Lemma node_carries : on_nodes node_field mixed_cells 6.
Proof.
  split; [done|]. split; [exact mixed_stores|]. split; [eexists; split; [reflexivity|]; by apply sized_list|]. split; [exact mixed_used|]. intros a Ha. cbn [node_field fd_arrs] in Ha. apply elem_of_list_singleton in Ha. injection Ha as ->. by apply sized_list.
Qed.
Lemma perm5 : is_perm 5 [4; 0; 3; 1; 2].
Proof. unfold is_perm. change (seqZ 0 5) with [0; 1; 2; 3; 4]. apply NoDup_Permutation; [repeat constructor; cbn; by repeat (rewrite elem_of_cons); rewrite ?elem_of_nil; lia..|]. intros x. rewrite !elem_of_cons, !elem_of_nil. lia. Qed.
Lemma part_picked : picked mixed_cells [2; 0; 2] [(NORM_TRI3, [3; 5; 4]); (NORM_TRI3, [0; 1; 2]); (NORM_TRI3, [3; 5; 4])].
Proof. repeat constructor. Qed.
Lemma tail_picked : picked mixed_cells [2; 4] [(NORM_TRI3, [3; 5; 4]); (NORM_QUAD4, [0; 1; 3; 5])].
Proof. repeat constructor. Qed.
Lemma tail_range : valid_range 2 5 2 /\ is_range_list 2 5 2 [2; 4].
Proof.
  split; [split; [lia|split; lia]|]. intros k v. unfold before. split.
  - intros H. apply zlook_Some_lt in H as Hk. change (zlen [2; 4]) with 2 in Hk. assert (k = 0 \/ k = 1) as [-> | ->] by lia; injection H as <-; lia.
  - intros (H1 & -> & H2). assert (k = 0 \/ k = 1) as [-> | ->] by lia; done.
Qed.
Lemma front_picked : picked mixed_cells (seqZ 0 2) [(NORM_TRI3, [0; 1; 2]); (NORM_QUAD4, [1; 3; 4; 2])].
Proof. repeat constructor. Qed.
Lemma merge_range : (forall v, v ∈ [0; 1; 2; 0; -1; 1] -> v < 3) /\ forall t, 0 <= t < 3 -> t ∈ [0; 1; 2; 0; -1; 1].
Proof. split; [intros v Hv; repeat (apply elem_of_cons in Hv as [->|Hv]; [lia|]); by apply elem_of_nil in Hv|]. intros t Ht. rewrite !elem_of_cons. lia. Qed.
Lemma node_unmarked a : Some a ∈ fd_arrs node_field -> unmarked 1000 a.
Proof.
  intros Ha. cbn [node_field fd_arrs] in Ha. apply elem_of_list_singleton in Ha. injection Ha as ->. intros i Hi. change (da_nt _) with 6 in Hi. exists 0.
  assert (i = 0 \/ i = 1 \/ i = 2 \/ i = 3 \/ i = 4 \/ i = 5) as [-> |[-> |[-> |[-> |[-> | ->]]]]] by lia; eexists; (split; [reflexivity|done]).
Qed.
Definition empty_field : field Z := FD GaussNE (mk 2 3 []) [Some (DA true 1 [])].
Lemma empty_carries : carries empty_field [] [].
Proof. split; [apply mk_ok; lia|]. split; [constructor|]. intros a Ha. cbn [empty_field fd_arrs] in Ha. apply elem_of_list_singleton in Ha. injection Ha as ->. by apply sized_list. Qed.
(** The refusal of the computation of the number of tuples. *)
Lemma tuples_throw d m cells : stores m cells -> d <> P1 -> (forall g dpc, d = GaussPt g -> gd_dpc g = Some dpc -> zlen dpc = zlen cells) -> (forall ns, ~ sizes d cells ns) -> getNumberOfTuples d m = Throw.
Proof. intros Hs H1 Hl Hn. destruct (sizes_or d m cells Hs H1) as [[ns H]|[[H _]|(g & dpc & -> & E & H)]]; [by destruct (Hn ns)|done|by destruct H; apply (Hl g dpc)]. Qed.
Lemma offsets_plain d m cells ns : stores m cells -> sizes d cells ns -> exists r, getOffsetArr d m = Ok (Some <$> r) /\ prefix_sums ns r.
Proof. intros Hs Hz. exists (FillLib.psums ns). split; [by apply (offsets_ok d m cells)|apply FillLib.psums_ok]. Qed.
