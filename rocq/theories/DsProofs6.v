(** The sons of the usual cells, examples and refutations. *)
From Coq Require Import QArith ZifyBool ZifyNat.
From Verif Require Import CellModel Base ArrLib DataArray StdModel StdProofs RenumModel RenumSpec RenumProofs RenumProofs2 IndexModel IndexSpec IndexProofs IndexProofs2 IndexProofs3 IndexProofs4 SearchModel SearchProofs FillLib SkyModel SkyProofs PartModel PartSpec CellTable CellSpec CellProofs CellProofs3 CellProofs5 UmModel UmSpec UmProofs UmProofs2 UmProofs3 UmProofs4 UmProofs8 UmProofs9 UmProofs10 UcModel UcSpec UcProofs UcProofs3 UcProofs4 UcProofs6 DsModel DsSpec DsProofs DsProofs2 DsProofs3 DsProofs4 DsProofs5.
Local Open Scope Z_scope.

Lemma nodup_count (l : list Z) n : NoDup l -> n ∈ l -> count_occ Z.eq_dec l n = 1%nat.
Proof. intros H Hn. apply NoDup_ListNoDup in H. apply elem_of_list_In in Hn. pose proof (proj1 (NoDup_count_occ Z.eq_dec l) H n). pose proof (proj1 (count_occ_In Z.eq_dec l n) Hn). lia. Qed.
Lemma nodup_good dim nb f : insertable dim f -> (forall n, n ∈ f.2 -> 0 <= n < nb) -> NoDup f.2 -> 1 <= zlen f.2 -> good_son dim nb f.
Proof. intros H1 H2 H3 H4. split; [done|]. split; [done|]. destruct f as [t [|n l]]; [cbn in H4; unfold zlen in H4; cbn in H4; lia|]. exists n. apply nodup_count; [done|]. cbn. left. Qed.
Lemma at_elem conn i : 0 <= i < zlen conn -> at_ conn i ∈ conn.
Proof. intros Hi. destruct (zlook_lt conn i Hi) as [x Hx]. unfold at_. rewrite Hx. by eapply zlook_elem. Qed.
Lemma at_nodup conn (l : list Z) : NoDup conn -> Forall (fun i => 0 <= i < zlen conn) l -> NoDup l -> NoDup (at_ conn <$> l).
Proof. intros Hc Hl Hnd. rewrite Forall_forall in Hl. apply NoDup_fmap_2_strong; [|done]. intros x y Hx Hy. apply at_inj; auto. Qed.
Lemma look_ne (l : list Z) i j a b : NoDup l -> l @ i = Some a -> l @ j = Some b -> i <> j -> a <> b.
Proof. intros Hn Hi Hj Hne ->. apply Hne. pose proof (zlook_Some_lt _ _ _ Hi). pose proof (zlook_Some_lt _ _ _ Hj). apply (at_inj l); [done|done|done|]. unfold at_. by rewrite Hi, Hj. Qed.

(** Cells of fixed size. *)
Definition sonb (c : cm) : bool := if cm_dyn c || (cm_dim c <? 1) || (3 <? cm_dim c) then true else
  (cm_nbsons c =? zlen (cm_sons c)) && forallb (fun s : Z * list Z => forallb (fun i => (0 <=? i) && (i <? cm_nbpts c)) s.2 && bool_decide (NoDup s.2) && (1 <=? zlen s.2) && (zlen s.2 <=? 1 + cm_nbpts c) &&
    match GetCellModel s.1 with Ok k => (cm_dim k =? cm_dim c - 1) && (cm_dyn k || (zlen s.2 =? cm_nbpts k)) | _ => false end) (cm_sons c).
Lemma models_sons : forallb sonb models = true. Proof. vm_compute. done. Qed.
Lemma static_sons k conn nb t : GetCellModel t = Ok k -> cm_dyn k = false -> 1 <= cm_dim k <= 3 -> zlen conn = cm_nbpts k -> NoDup conn -> (forall n, n ∈ conn -> 0 <= n < nb) ->
  exists fs, sons MinusOneSonsGenerator (t, conn) fs /\ forall f, f ∈ fs -> good_son (cm_dim k - 1) nb f.
Proof.
  intros Hk Hd Hdim Hl Hnd Hnb. pose proof (CellProofs.forallb_elem _ _ _ models_sons (model_in _ _ Hk)) as H. unfold sonb in H. rewrite Hd in H. replace (_ || _ || _) with false in H by lia. apply andb_true_iff in H as [Hn HS].
  assert (G : forall s, s ∈ cm_sons k -> Forall (fun i => 0 <= i < zlen conn) s.2 /\ NoDup s.2 /\ 1 <= zlen s.2 <= 1 + zlen conn /\ insertable (cm_dim k - 1) (s.1, at_ conn <$> s.2)).
  { intros s Hs. pose proof (CellProofs.forallb_elem _ _ _ HS Hs) as H. cbv beta in H. apply andb_true_iff in H as [H H5]. apply andb_true_iff in H as [H H4]. apply andb_true_iff in H as [H H3]. apply andb_true_iff in H as [H1 H2]. apply bool_decide_eq_true in H2.
    split; [apply Forall_forall; intros i Hi; pose proof (CellProofs.forallb_elem _ _ _ H1 Hi) as H; cbv beta in H; lia|]. split; [done|]. split; [lia|]. destruct (GetCellModel s.1) as [k'| | |] eqn:E; try done. exists k'. split; [done|]. apply andb_true_iff in H5 as [H5 H6]. split; [lia|]. intros Hdy. rewrite Hdy in H6. cbn [snd]. rewrite zlen_fmap. cbn in H6. lia. }
  exists ((fun s : Z * list Z => (s.1, at_ conn <$> s.2)) <$> cm_sons k). split.
  - exists k. split; [done|]. cbn [g_nb g_fill MinusOneSonsGenerator snd fst]. rewrite zlen_fmap. unfold getNumberOfSons2. rewrite Hd. cbn [negb]. split; [f_equal; lia|].
    intros i f Hf. rewrite zlook_fmap in Hf. destruct (cm_sons k @ i) as [s|] eqn:E; [|done]. cbn in Hf. injection Hf as <-. destruct (G s) as (G1 & _ & G3 & _); [by eapply zlook_elem|]. split; [|cbn [snd]; rewrite zlen_fmap; lia].
    unfold fillSon2, getSonType2, fillSon. rewrite Hd. cbn [negb]. rewrite (rd_ok _ _ _ E). cbn [bind]. rewrite reads_ok by done. done.
  - intros f Hf. apply elem_of_list_fmap in Hf as (s & -> & Hs). destruct (G s Hs) as (G1 & G2 & G3 & G4). apply nodup_good; [done| |cbn [snd]; by apply at_nodup|cbn [snd]; rewrite zlen_fmap; lia].
    cbn [snd]. intros n Hin. apply elem_of_list_fmap in Hin as (i & -> & Hi). apply Hnb, at_elem. rewrite Forall_forall in G1. by apply G1.
Qed.

(** Polygons. *)
Lemma poly_sons conn nb : 2 <= zlen conn -> NoDup conn -> (forall n, n ∈ conn -> 0 <= n < nb) ->
  exists fs, sons MinusOneSonsGenerator (NORM_POLYGON, conn) fs /\ forall f, f ∈ fs -> good_son 1 nb f.
Proof.
  intros Hl Hnd Hnb. assert (Hm : cm_POLYGON ∈ models) by (apply (model_in NORM_POLYGON); reflexivity). destruct (border_ok cm_POLYGON conn Hm eq_refl) as [B1 B2]; [done|]. change (cm_quad cm_POLYGON) with false in *. cbn [edges2D] in *.
  exists ((fun e => (NORM_SEG2, edge_nodes e)) <$> ring conn). assert (G : forall e, e ∈ ring conn -> exists a b, e = (a, b, []) /\ a ∈ conn /\ b ∈ conn /\ a <> b).
  { intros e He. apply elem_of_zlook in He as [i Hi]. apply ring_look in Hi as (Hi & H1 & H2 & H3). destruct e as [[a b] m]. cbn in *. subst m. exists a, b. split; [done|]. split; [by eapply zlook_elem|]. split; [by eapply zlook_elem|]. apply (look_ne conn i _ a b Hnd H1 H2). intros E. destruct (Z.eq_dec (i + 1) (zlen conn)) as [E2|N2]; [rewrite E2, Z.mod_same in E by lia; lia|]. rewrite Z.mod_small in E by lia. lia. }
  split.
  - exists cm_POLYGON. split; [done|]. cbn [g_nb g_fill MinusOneSonsGenerator snd fst]. rewrite zlen_fmap, B1. split; [done|]. intros i f Hf. rewrite zlook_fmap in Hf. destruct (ring conn @ i) as [e|] eqn:E; [|done]. cbn in Hf. injection Hf as <-. split; [by apply B2|]. destruct (G e) as (a & b & -> & _); [by eapply zlook_elem|]. cbn [snd]. unfold edge_nodes. cbn. change (zlen [a; b]) with 2. lia.
  - intros f Hf. apply elem_of_list_fmap in Hf as (e & -> & He). destruct (G e He) as (a & b & -> & Ha & Hb & Hab). apply nodup_good; [eexists; split; [reflexivity|]; done| | |done].
    + cbn. intros n Hn. apply elem_of_cons in Hn as [->|Hn]; [by apply Hnb|]. apply elem_of_list_singleton in Hn as ->. by apply Hnb.
    + cbn. apply NoDup_cons. split; [|apply NoDup_singleton]. intros H. apply elem_of_list_singleton in H. done.
Qed.
Lemma qpoly_sons conn nb : 4 <= zlen conn -> NoDup conn -> (forall n, n ∈ conn -> 0 <= n < nb) ->
  exists fs, sons MinusOneSonsGenerator (NORM_QPOLYG, conn) fs /\ forall f, f ∈ fs -> good_son 1 nb f.
Proof.
  intros Hl Hnd Hnb. assert (Hm : cm_QPOLYG ∈ models) by (apply (model_in NORM_QPOLYG); reflexivity). destruct (border_ok cm_QPOLYG conn Hm eq_refl) as [B1 B2]; [done|]. change (cm_quad cm_QPOLYG) with true in *. cbn [edges2D] in *.
  assert (Hh : 2 <= zlen conn / 2 /\ zlen conn / 2 + zlen conn / 2 <= zlen conn) by (pose proof (Z.div_mod (zlen conn) 2); pose proof (Z.mod_pos_bound (zlen conn) 2); lia).
  exists ((fun e => (NORM_SEG3, edge_nodes e)) <$> ring2 conn). assert (G : forall e, e ∈ ring2 conn -> exists a b m, e = (a, b, [m]) /\ a ∈ conn /\ b ∈ conn /\ m ∈ conn /\ a <> b /\ a <> m /\ b <> m).
  { intros e He. apply elem_of_zlook in He as [i Hi]. apply ring2_look in Hi as (Hi & H1 & H2 & m & H3 & H4). destruct e as [[a b] m']. cbn in *. subst m'. exists a, b, m. set (h := zlen conn / 2) in *. assert (Hq : 0 <= (i + 1) mod h < h) by (apply Z.mod_pos_bound; lia). split; [done|]. split; [by eapply zlook_elem|]. split; [by eapply zlook_elem|]. split; [by eapply zlook_elem|]. split; [|split].
    - apply (look_ne conn i _ a b Hnd H1 H2). intros E. destruct (Z.eq_dec (i + 1) h) as [E2|N2]; [rewrite E2, Z.mod_same in E by lia; lia|]. rewrite Z.mod_small in E by lia. lia.
    - apply (look_ne conn _ _ a m Hnd H1 H4). lia.
    - apply (look_ne conn _ _ b m Hnd H2 H4). lia. }
  split.
  - exists cm_QPOLYG. split; [done|]. cbn [g_nb g_fill MinusOneSonsGenerator snd fst]. rewrite zlen_fmap, B1. split; [done|]. intros i f Hf. rewrite zlook_fmap in Hf. destruct (ring2 conn @ i) as [e|] eqn:E; [|done]. cbn in Hf. injection Hf as <-. split; [by apply B2|]. destruct (G e) as (a & b & m & -> & _); [by eapply zlook_elem|]. cbn [snd]. unfold edge_nodes. cbn. change (zlen [a; b; m]) with 3. lia.
  - intros f Hf. apply elem_of_list_fmap in Hf as (e & -> & He). destruct (G e He) as (a & b & m & -> & Ha & Hb & Hm' & Hab & Ham & Hbm). apply nodup_good; [eexists; split; [reflexivity|]; done| | |done].
    + cbn. intros n Hn. apply elem_of_cons in Hn as [->|Hn]; [by apply Hnb|]. apply elem_of_cons in Hn as [->|Hn]; [by apply Hnb|]. apply elem_of_list_singleton in Hn as ->. by apply Hnb.
    + cbn. apply NoDup_cons. split; [intros H; apply elem_of_cons in H as [H|H]; [done|]; apply elem_of_list_singleton in H; done|]. apply NoDup_cons. split; [|apply NoDup_singleton]. intros H. apply elem_of_list_singleton in H. done.
Qed.

(** Polyhedra. *)
Lemma face_len (faces : list (list Z)) f : f ∈ faces -> zlen f <= zlen (polyhedron faces).
Proof.
  induction faces as [|g r IH]; intros H; [by apply elem_of_nil in H|]. destruct r as [|g' r]; [apply elem_of_list_singleton in H as ->; done|]. change (polyhedron (g :: g' :: r)) with (g ++ -1 :: polyhedron (g' :: r)). rewrite zlen_app, zlen_cons. pose proof (zlen_nonneg g). pose proof (zlen_nonneg (polyhedron (g' :: r))). apply elem_of_cons in H as [->|H]; [lia|]. apply IH in H. lia.
Qed.
Lemma polyhed_sons faces nb : faces <> [] -> (forall f, f ∈ faces -> 2 <= zlen f /\ NoDup f /\ forall n, n ∈ f -> 0 <= n < nb) ->
  exists fs, sons MinusOneSonsGenerator (NORM_POLYHED, polyhedron faces) fs /\ forall f, f ∈ fs -> good_son 2 nb f.
Proof.
  intros Hne Hf. assert (Hs : forall f, f ∈ faces -> -1 ∉ f). { intros f Hin H. destruct (Hf f Hin) as (_ & _ & Hb). apply Hb in H. lia. }
  destruct (polyhedron_ok faces Hne Hs cm_POLYHED eq_refl) as [P1 P2]. exists ((fun f => (NORM_POLYGON, f)) <$> faces). split.
  - exists cm_POLYHED. split; [done|]. cbn [g_nb g_fill MinusOneSonsGenerator snd fst]. rewrite zlen_fmap, P1. split; [done|]. intros i f Hi. rewrite zlook_fmap in Hi. destruct (faces @ i) as [g|] eqn:E; [|done]. cbn in Hi. injection Hi as <-. split; [by apply P2|]. cbn [snd]. pose proof (face_len faces g ltac:(by eapply zlook_elem)). lia.
  - intros f Hin. apply elem_of_list_fmap in Hin as (g & -> & Hg). destruct (Hf g Hg) as (H2 & Hnd & Hb). apply nodup_good; [eexists; split; [reflexivity|]; done|done|done|cbn [snd]; lia].
Qed.
Lemma dyn_types t k : GetCellModel t = Ok k -> cm_dyn k = true -> t = NORM_POLYGON /\ cm_dim k = 2 \/ t = NORM_QPOLYG /\ cm_dim k = 2 \/ t = NORM_POLYHED /\ cm_dim k = 3 \/ t = NORM_POLYL /\ cm_dim k = 1.
Proof.
  intros Hk Hd. assert (Ht : cm_type k = t). { unfold GetCellModel in Hk. destruct (List.find _ models) as [c|] eqn:E; [|done]. apply find_some in E as [_ E]. injection Hk as <-. lia. }
  assert (H : forallb (fun c => negb (cm_dyn c) || (cm_type c =? NORM_POLYGON) && (cm_dim c =? 2) || (cm_type c =? NORM_QPOLYG) && (cm_dim c =? 2) || (cm_type c =? NORM_POLYHED) && (cm_dim c =? 3) || (cm_type c =? NORM_POLYL) && (cm_dim c =? 1)) models = true) by (vm_compute; done).
  pose proof (CellProofs.forallb_elem _ _ _ H (model_in _ _ Hk)) as H'. cbv beta in H'. rewrite Hd, Ht in H'. cbn [negb] in H'. lia.
Qed.
Lemma static_not_polyhed t k : GetCellModel t = Ok k -> cm_dyn k = false -> t =? NORM_POLYHED = false.
Proof. intros Hk Hd. destruct (Z.eqb_spec t NORM_POLYHED) as [->|]; [|done]. vm_compute in Hk. injection Hk as <-. done. Qed.
Lemma proper_sons dim nb c : proper dim nb c -> 1 <= dim <= 3 -> exists fs, sons MinusOneSonsGenerator c fs /\ forall f, f ∈ fs -> good_son (dim - 1) nb f.
Proof.
  destruct c as [t conn]. intros (k & Hk & Hd & Hpl & Hl & Hc) Hdim. cbn [fst snd] in *. destruct (cm_dyn k) eqn:Hdy.
  - destruct (dyn_types t k Hk Hdy) as [[-> E]|[[-> E]|[[-> E]|[-> E]]]]; [| | |done].
    + change (NORM_POLYGON =? NORM_POLYHED) with false in Hc. destruct Hc as (H1 & H2 & H3 & _). rewrite <- Hd, E. by apply poly_sons; [apply H3| |].
    + change (NORM_QPOLYG =? NORM_POLYHED) with false in Hc. destruct Hc as (H1 & H2 & _ & H3). rewrite <- Hd, E. by apply qpoly_sons; [apply H3| |].
    + rewrite Z.eqb_refl in Hc. destruct Hc as (faces & -> & Hne & Hf). rewrite <- Hd, E. by apply polyhed_sons.
  - rewrite (static_not_polyhed t k Hk Hdy) in Hc. destruct Hc as (H1 & H2 & _). subst dim. apply static_sons; auto.
Qed.
Lemma all_sons dim nb cells : 1 <= dim <= 3 -> Forall (proper dim nb) cells ->
  exists fss, Forall2 (sons MinusOneSonsGenerator) cells fss /\ forall f, f ∈ concat fss -> good_son (dim - 1) nb f.
Proof.
  intros Hd. induction 1 as [|c cells Hc _ IH]; [exists []; split; [constructor|intros f Hf; by apply elem_of_nil in Hf]|]. destruct IH as (fss & H1 & H2). destruct (proper_sons dim nb c Hc Hd) as (fs & H3 & H4). exists (fs :: fss). split; [by constructor|]. intros f Hf. cbn [concat] in Hf. apply elem_of_app in Hf as [Hf|Hf]; auto.
Qed.

(** * Edges of the cells of dimension 3 *)
Definition edgeb (c : cm) : bool := if cm_dyn c || negb (cm_dim c =? 3) || (cm_type c =? NORM_HEXA27) then true else
  (3 <=? 1 + cm_nbpts c) && match cm_little c with None => false | Some ls => forallb (fun s => (zlen s =? (if cm_quad c then 3 else 2)) && forallb (fun i => (0 <=? i) && (i <? cm_nbpts c)) s && bool_decide (NoDup s)) ls end.
Lemma models_edges : forallb edgeb models = true. Proof. vm_compute. done. Qed.
Lemma static_edges k conn nb t : GetCellModel t = Ok k -> cm_dyn k = false -> cm_dim k = 3 -> t <> NORM_HEXA27 -> zlen conn = cm_nbpts k -> NoDup conn -> (forall n, n ∈ conn -> 0 <= n < nb) ->
  exists fs, sons MinusTwoSonsGenerator (t, conn) fs /\ forall f, f ∈ fs -> good_son 1 nb f.
Proof.
  intros Hk Hd H3 H27 Hl Hnd Hnb. assert (Ht : cm_type k = t). { unfold GetCellModel in Hk. destruct (List.find _ models) as [c|] eqn:E; [|done]. apply find_some in E as [_ E]. injection Hk as <-. lia. }
  pose proof (CellProofs.forallb_elem _ _ _ models_edges (model_in _ _ Hk)) as H. unfold edgeb in H. rewrite Hd, H3 in H. replace (_ || _ || _) with false in H by lia. apply andb_true_iff in H as [Hn HS]. destruct (cm_little k) as [ls|] eqn:El; [|done].
  assert (G : forall s, s ∈ ls -> zlen s = (if cm_quad k then 3 else 2) /\ Forall (fun i => 0 <= i < zlen conn) s /\ NoDup s).
  { intros s Hs. pose proof (CellProofs.forallb_elem _ _ _ HS Hs) as H. cbv beta in H. apply andb_true_iff in H as [H Hb]. apply andb_true_iff in H as [Ha Hc]. apply bool_decide_eq_true in Hb. split; [lia|]. split; [|done]. apply Forall_forall. intros i Hi. pose proof (CellProofs.forallb_elem _ _ _ Hc Hi) as H. cbv beta in H. lia. }
  set (ty := if cm_quad k then NORM_SEG3 else NORM_SEG2). exists ((fun s : list Z => (ty, at_ conn <$> s)) <$> ls).
  assert (Hnp : (t =? NORM_POLYHED) = false) by (by eapply static_not_polyhed). split.
  - exists k. split; [done|]. cbn [g_nb g_fill MinusTwoSonsGenerator snd fst]. rewrite Ht, Hnp, zlen_fmap. unfold getNumberOfEdgesIn3D. rewrite Hd, El. cbn [negb]. split; [done|].
    intros i f Hf. rewrite zlook_fmap in Hf. destruct (ls @ i) as [s|] eqn:E; [|done]. cbn in Hf. injection Hf as <-. destruct (G s) as (G1 & G2 & _); [by eapply zlook_elem|]. split; [|cbn [snd]; rewrite zlen_fmap; destruct (cm_quad k); lia].
    unfold fillSonEdges3D, ty. rewrite Hd, El, (rd_ok _ _ _ E). cbn [bind]. rewrite Forall_forall in G2.
    assert (R : forall j, j ∈ s -> rd conn j = Ok (at_ conn j)). { intros j Hj. destruct (zlook_lt conn j (G2 j Hj)) as [x Hx]. unfold at_. rewrite Hx. by apply rd_ok. }
    destruct (cm_quad k); cbn [negb]; destruct s as [|a [|b [|c [|e s]]]]; try (exfalso; rewrite ?zlen_cons, ?zlen_nil in G1; try (pose proof (zlen_nonneg s)); lia).
    + lit. rewrite (R a), (R b), (R c) by (repeat first [left; fail | constructor]). done.
    + lit. rewrite (R a), (R b) by (repeat first [left; fail | constructor]). done.
  - intros f Hf. apply elem_of_list_fmap in Hf as (s & -> & Hs). destruct (G s Hs) as (G1 & G2 & G3). apply nodup_good.
    + unfold ty. destruct (cm_quad k); (eexists; split; [reflexivity|]; split; [done|]; intros _; cbn [snd]; rewrite zlen_fmap, G1; done).
    + cbn [snd]. intros n Hin. apply elem_of_list_fmap in Hin as (i & -> & Hi). apply Hnb, at_elem. rewrite Forall_forall in G2. by apply G2.
    + cbn [snd]. by apply at_nodup.
    + cbn [snd]. rewrite zlen_fmap, G1. destruct (cm_quad k); lia.
Qed.
Lemma ring_ends l e : 2 <= zlen l -> NoDup l -> e ∈ ring l -> e.1.1 ∈ l /\ e.1.2 ∈ l /\ e.1.1 <> e.1.2.
Proof.
  intros Hl Hnd He. apply elem_of_zlook in He as [i Hi]. apply ring_look in Hi as (Hi & H1 & H2 & H3). split; [by eapply zlook_elem|]. split; [by eapply zlook_elem|]. apply (look_ne l i _ _ _ Hnd H1 H2). intros E. destruct (Z.eq_dec (i + 1) (zlen l)) as [E2|N2]; [rewrite E2, Z.mod_same in E by lia; lia|]. rewrite Z.mod_small in E by lia. lia.
Qed.
Lemma zlen_pairs (es : list (Z * Z)) : zlen (concat ((fun p => [p.1; p.2]) <$> es)) = 2 * zlen es.
Proof. induction es as [|p es IH]; [done|]. rewrite fmap_cons. cbn [concat]. rewrite zlen_app, IH. rewrite (zlen_cons p es). change (zlen [p.1; p.2]) with 2. lia. Qed.
Lemma pairs_at (es : list (Z * Z)) i p : es @ i = Some p -> concat ((fun p => [p.1; p.2]) <$> es) @ (2 * i) = Some p.1 /\ concat ((fun p => [p.1; p.2]) <$> es) @ (2 * i + 1) = Some p.2.
Proof.
  revert i. induction es as [|q es IH]; intros i Hi; [by rewrite zlook_nil in Hi|]. pose proof (zlook_Some_lt _ _ _ Hi). rewrite zlook_cons in Hi. rewrite fmap_cons. cbn [concat]. destruct (Z.eqb_spec i 0) as [E0|Hne].
  - subst i. injection Hi as ->. done.
  - rewrite !zlook_app_r by (change (zlen [q.1; q.2]) with 2; lia). change (zlen [q.1; q.2]) with 2. destruct (IH (i - 1) Hi) as [I1 I2]. replace (2 * i - 2) with (2 * (i - 1)) by lia. replace (2 * i + 1 - 2) with (2 * (i - 1) + 1) by lia. done.
Qed.
Lemma polyhed_edges faces nb : faces <> [] -> (forall f, f ∈ faces -> 2 <= zlen f /\ NoDup f /\ forall n, n ∈ f -> 0 <= n < nb) ->
  exists fs, sons MinusTwoSonsGenerator (NORM_POLYHED, polyhedron faces) fs /\ forall f, f ∈ fs -> good_son 1 nb f.
Proof.
  intros Hne Hf. assert (Hs : forall f, f ∈ faces -> -1 ∉ f). { intros f Hin H. destruct (Hf f Hin) as (_ & _ & Hb). apply Hb in H. lia. }
  destruct (polyhedron_edges faces Hne Hs) as (es & E1 & E2 & _ & E4). exists ((fun p : Z * Z => (NORM_SEG2, [p.1; p.2])) <$> es). split.
  - exists cm_POLYHED. split; [done|]. cbn [g_nb g_fill MinusTwoSonsGenerator snd fst]. change (cm_type cm_POLYHED =? NORM_POLYHED) with true. cbn [negb]. rewrite E1. cbn [bind]. rewrite zlen_fmap, zlen_pairs. split; [f_equal; rewrite Z.mul_comm; apply Z.div_mul; lia|].
    intros i f Hi. rewrite zlook_fmap in Hi. destruct (es @ i) as [p|] eqn:E; [|done]. cbn in Hi. injection Hi as <-. destruct (pairs_at es i p E) as [P1 P2]. rewrite (rd_ok _ _ _ P1). cbn [bind]. rewrite (rd_ok _ _ _ P2). cbn [bind]. split; [done|]. cbn [snd]. change (zlen [p.1; p.2]) with 2. destruct faces as [|g r]; [done|]. pose proof (face_len (g :: r) g ltac:(left)). destruct (Hf g ltac:(left)) as (? & _). lia.
  - intros f Hin. apply elem_of_list_fmap in Hin as (p & -> & Hp). destruct (proj1 (E4 p)) as (g & e & Hg & He & Hpe); [exists p; split; [done|by left]|]. destruct (Hf g Hg) as (H2 & Hnd & Hb). destruct (ring_ends g e H2 Hnd He) as (R1 & R2 & R3).
    assert (p.1 ∈ g /\ p.2 ∈ g /\ p.1 <> p.2) as (Q1 & Q2 & Q3) by (destruct Hpe as [->| ->]; cbn; auto). apply nodup_good; [eexists; split; [reflexivity|]; done| | |done].
    + cbn [snd]. intros n Hn. apply elem_of_cons in Hn as [->|Hn]; [by apply Hb|]. apply elem_of_list_singleton in Hn as ->. by apply Hb.
    + cbn [snd]. apply NoDup_cons. split; [|apply NoDup_singleton]. intros H. apply elem_of_list_singleton in H. done.
Qed.
Lemma all_edges nb cells : Forall (proper 3 nb) cells -> (forall c : cell, c ∈ cells -> c.1 <> NORM_HEXA27) ->
  exists fss, Forall2 (sons MinusTwoSonsGenerator) cells fss /\ forall f, f ∈ concat fss -> good_son 1 nb f.
Proof.
  intros HF H27. induction cells as [|c cells IH]; [exists []; split; [constructor|intros f Hf; by apply elem_of_nil in Hf]|]. inversion HF as [|? ? Hc HF']; subst. destruct IH as (fss & H1 & H2); [done|intros d Hd; apply H27; by right|].
  assert (exists fs, sons MinusTwoSonsGenerator c fs /\ forall f, f ∈ fs -> good_son 1 nb f) as (fs & H3 & H4).
  { specialize (H27 c ltac:(left)). destruct c as [t conn]. destruct Hc as (k & Hk & Hd & Hpl & Hl & Hc). cbn [fst snd] in *. destruct (cm_dyn k) eqn:Hdy.
    - destruct (dyn_types t k Hk Hdy) as [[-> E]|[[-> E]|[[-> E]|[-> E]]]]; try lia. rewrite Z.eqb_refl in Hc. destruct Hc as (faces & -> & Hne & Hf). by apply polyhed_edges.
    - rewrite (static_not_polyhed t k Hk Hdy) in Hc. destruct Hc as (Hx & Hy & _). apply (static_edges k); auto. }
  exists (fs :: fss). split; [by constructor|]. intros f Hf. cbn [concat] in Hf. apply elem_of_app in Hf as [Hf|Hf]; auto.
Qed.
Lemma explode31_ok m cells fss nb : stores m cells -> has_nodes m nb -> Forall2 (sons MinusTwoSonsGenerator) cells fss -> um_dim m = 3 -> (forall f, f ∈ concat fss -> good_son 1 nb f) ->
  exists m' new dss desc descI revDesc revDescI, explode3DMeshTo1D m = Ok (m', desc, descI, revDesc, revDescI) /\
    stores m' new /\ typed m' new /\ um_dim m' = 1 /\ um_coords m' = um_coords m /\
    descends fss new dss /\ skyline dss desc descI /\ skyline (owners 0 dss <$> seqZ 0 (zlen new)) revDesc revDescI.
Proof.
  intros Hst Hn Hs Hd Hg. destruct (stores_get m cells Hst) as (conn & connI & Ec & EI & _). pose proof Hn as (co & Eco & _). unfold explode3DMeshTo1D, checkFullyDefined, getMeshDimension. rewrite EI, Ec, Eco, Hd. cbn [Z.ltb Z.compare ifthrow bind Z.eqb Pos.eqb negb].
  destruct (fast_ok MinusTwoSonsGenerator m cells fss nb Hst Hn Hs) as (m' & H); [lia|rewrite Hd; cbn; lia|rewrite Hd; done|]. rewrite Hd, ?Eco in H. exists m'. exact H.
Qed.

(** * Identifiers given by node brought to the cells *)
Lemma light_ok m cells : stores m cells -> typed m cells -> is_Some (um_coords m) -> -1 <= um_dim m -> Forall (insertable (um_dim m)) cells -> checkConsistencyLight m = Ok tt.
Proof.
  intros Hs [_ Ht] Hc Hd HF. rewrite (light_eq m cells Hs Hc). replace (-1 <=? um_dim m) with true by lia. cbn [andb]. assert (forallb (okdim (um_dim m)) (um_types m) = true) as ->; [|done]. apply forallb_forall. intros t Hty. apply elem_of_list_In in Hty. apply Ht in Hty as (c & Hc' & <-). rewrite Forall_forall in HF. destruct (HF c Hc') as (k & Hk & Hkd & _). unfold okdim. rewrite Hk. lia.
Qed.
Fixpoint around (nss : list (list Z)) (k : Z) (cells : list cell) : list (list Z) :=
  match cells with [] => [] | c :: r => List.filter (fun v => negb (v =? k)) (set_of (concat ((fun n => default [] (nss @ n)) <$> c.2))) :: around nss (k + 1) r end.
Lemma around_app nss k a b : around nss k (a ++ b) = around nss k a ++ around nss (k + zlen a) b.
Proof. revert k. induction a as [|c a IH]; intros k; [cbn [around app]; rewrite zlen_nil, Z.add_0_r; done|]. cbn [around app]. rewrite IH, zlen_cons. do 2 f_equal. f_equal. lia. Qed.
Lemma around_len nss k a : zlen (around nss k a) = zlen a.
Proof. revert k. induction a as [|c a IH]; intros k; [done|]. cbn [around]. rewrite !zlen_cons, IH. done. Qed.
Lemma around_at nss k cells i c : cells @ i = Some c -> around nss k cells @ i = Some (List.filter (fun v => negb (v =? k + i)) (set_of (concat ((fun n => default [] (nss @ n)) <$> c.2)))).
Proof.
  revert k i. induction cells as [|d cells IH]; intros k i Hi; [by rewrite zlook_nil in Hi|]. cbn [around]. rewrite zlook_cons in Hi. rewrite zlook_cons. destruct (i =? 0) eqn:E; [injection Hi as ->; replace (k + i) with k by lia; done|]. rewrite (IH _ _ Hi). replace (k + 1 + (i - 1)) with (k + i) by lia. done.
Qed.
Lemma around_ok m cells nb nss nn nnI : stores m cells -> typed m cells -> has_nodes m nb -> -1 <= um_dim m -> Forall (insertable (um_dim m)) cells -> (forall (c : cell) n, c ∈ cells -> n ∈ c.2 -> n < nb) ->
  skyline nss nn nnI -> zlen nss = nb -> computeCellNeighborhoodFromNodesOne m (vec nn) (vec nnI) = Ok (concat (around nss 0 cells), psums (zlen <$> around nss 0 cells)).
Proof.
  intros Hs Hty (d & Hd & Hda & Hdw & Hnb) Hdim HF Hn Hsk Hl. destruct (stores_get _ _ Hs) as (conn & connI & Ec & EI & Hsky & _). unfold computeCellNeighborhoodFromNodesOne. rewrite (light_ok m cells Hs Hty ltac:(eauto) Hdim HF). cbn [bind].
  unfold checkAllocated. cbn [da_alloc da_nc da_vals vec negb ifthrow Z.eqb Pos.eqb]. unfold getNumberOfNodes. rewrite Hd. cbn [bind]. rewrite Hnb. pose proof Hsk as [_ Hp]. pose proof Hp as [HpI _]. rewrite zlen_fmap in HpI.
  assert (da_nt (vec nnI) = zlen nnI) as -> by (unfold da_nt, vec; cbn; by rewrite Z.quot_1_r). replace (zlen nnI =? 1 + nb) with true by lia. cbn [negb ifthrow]. rewrite (numCells_ok m cells Hs). cbn [bind]. unfold unchecked. rewrite Ec, EI.
  set (st := fun pre => (concat (around nss 0 pre), psums (zlen <$> around nss 0 pre))). change (@nil Z, [0]) with (st []). rewrite (forZ_blocks _ st (zlen cells) cells eq_refl); [done|].
  intros pre c post E. unfold st at 1. cbn iota. assert (Hc : cells @ zlen pre = Some c) by (rewrite E, zlook_app_r, Z.sub_diag by lia; done).
  destruct (cell_at _ _ _ _ _ Hsky Hc) as (a & Ha & Hb & Ha0 & Hbl & P & R & Econn & HP). rewrite (rd_ok _ _ _ Ha). cbn [bind]. rewrite (rd_ok _ _ _ Hb). cbn [bind]. pose proof (zlen_nonneg c.2). replace (a + 1 + zlen c.2 <? a + 1) with false by lia. cbn [ubif].
  rewrite Econn, split_pk. rewrite <- HP, <- (zlen_snoc1 P c.1), inner_loop.
  match goal with |- context [foldM ?f c.2 []] => set (F := f) end.
  assert (W : forall l s, (forall n, n ∈ l -> n ∈ c.2) -> foldM F l s = Ok (s ++ concat ((fun n => default [] (nss @ n)) <$> l))).
  { induction l as [|n l IH]; intros s Hin; [cbn; by rewrite app_nil_r|]. cbn [foldM]. assert (F s n = Ok (s ++ default [] (nss @ n))) as ->.
    { unfold F. destruct (0 <=? n) eqn:En; [|assert (nss @ n = None) as -> by (apply zlook_None; lia); cbn; by rewrite app_nil_r]. assert (n < nb) by (apply (Hn c); [by eapply zlook_elem|apply Hin; left]). destruct (zlook_lt nss n) as [ns Hns]; [lia|]. destruct (sky_pack nss nn nnI n ns Hsk Hns) as (a' & b' & Ha' & Hb' & Ha0' & Hab' & Hbl' & Hsub').
      rewrite (rd_ok _ _ _ Ha'). cbn [bind]. rewrite (rd_ok _ _ _ Hb'). cbn [bind]. assert (range nn a' b' = Ok ns) as ->. { unfold range. replace (_ && _) with true by lia. f_equal. rewrite Hsub'. unfold sub. f_equal. } cbn [bind]. by rewrite Hns. }
    cbn [bind]. rewrite IH by (intros x Hx; apply Hin; by right). rewrite fmap_cons. cbn [concat]. by rewrite app_assoc. }
  rewrite (W c.2 []) by done. cbn [bind app]. unfold st. rewrite around_app. cbn [around]. rewrite Z.add_0_l, concat_snoc. f_equal. f_equal. rewrite fmap_app. match goal with |- context [zlen <$> [?x]] => change (zlen <$> [x]) with [zlen x] end. rewrite psums_snoc_eq. rewrite zlen_app. rewrite <- zlen_concat. done.
Qed.
Lemma around_spec m cells nb nss nn nnI : stores m cells -> typed m cells -> has_nodes m nb -> -1 <= um_dim m -> Forall (insertable (um_dim m)) cells -> (forall (c : cell) n, c ∈ cells -> n ∈ c.2 -> n < nb) ->
  skyline nss nn nnI -> zlen nss = nb ->
  exists rss out outI, computeCellNeighborhoodFromNodesOne m (vec nn) (vec nnI) = Ok (out, outI) /\ skyline rss out outI /\ zlen rss = zlen cells /\
    forall i c rs, cells @ i = Some c -> rss @ i = Some rs -> ascending rs /\ forall j, j ∈ rs <-> j <> i /\ exists n ns, n ∈ c.2 /\ nss @ n = Some ns /\ j ∈ ns.
Proof.
  intros Hs Hty Hh Hdim HF Hn Hsk Hl. exists (around nss 0 cells). eexists _, _. split; [by eapply around_ok|]. split; [apply skyline_psums|]. split; [apply around_len|].
  intros i c rs Hc Hr. rewrite (around_at _ _ _ _ _ Hc), Z.add_0_l in Hr. injection Hr as <-. split; [apply asc_filter, SS_asc, SS_set_of|]. intros j. rewrite elem_of_list_In, filter_In, <- elem_of_list_In, elem_of_set_of. split.
  - intros [Hj Hne]. split; [lia|]. apply elem_concat' in Hj as (ns & Hns & Hj). apply elem_of_list_fmap in Hns as (n & -> & Hnc). destruct (nss @ n) as [ns|] eqn:En; [|by apply elem_of_nil in Hj]. by exists n, ns.
  - intros (Hne & n & ns & Hnc & Hns & Hj). split; [|lia]. apply elem_concat'. exists ns. split; [|done]. apply elem_of_list_fmap. exists n. by rewrite Hns.
Qed.

(** * Micro edges *)
Lemma halves_at (fs : list cell) i x : (forall f, f ∈ fs -> zlen (halves f) = 2) -> concat (halves <$> fs) @ i = Some x -> exists f, fs @ (i / 2) = Some f /\ halves f @ (i mod 2) = Some x.
Proof.
  revert i. induction fs as [|g fs IH]; intros i Hf Hi; [cbn in Hi; by rewrite zlook_nil in Hi|]. rewrite fmap_cons in Hi. cbn [concat] in Hi. pose proof (Hf g ltac:(left)) as Hg. pose proof (zlook_Some_lt _ _ _ Hi) as Hr. destruct (Z.ltb_spec i 2) as [L|L].
  - rewrite zlook_app_l in Hi by lia. exists g. replace (i / 2) with 0 by (symmetry; apply Z.div_small; lia). rewrite Z.mod_small by lia. done.
  - rewrite zlook_app_r in Hi by lia. rewrite Hg in Hi. destruct (IH (i - 2)) as (f & Hf' & Hx); [intros f Hin; apply Hf; by right|done|]. exists f. replace i with ((i - 2) + 1 * 2) by lia. rewrite Z.div_add, Z.mod_add by lia. rewrite zlook_cons. assert (0 <= (i - 2) / 2) by (apply Z.div_pos; lia). replace ((i - 2) / 2 + 1 =? 0) with false by lia. replace ((i - 2) / 2 + 1 - 1) with ((i - 2) / 2) by lia. done.
Qed.
Lemma halves_len (fs : list cell) : (forall f, f ∈ fs -> zlen (halves f) = 2) -> zlen (concat (halves <$> fs)) = 2 * zlen fs.
Proof. induction fs as [|g fs IH]; intros H; [done|]. rewrite fmap_cons. cbn [concat]. rewrite zlen_app, IH, (H g ltac:(left)), zlen_cons by (intros f Hf; apply H; by right). lia. Qed.
Lemma static_micro k conn nb t : GetCellModel t = Ok k -> cm_dyn k = false -> cm_dim k = 2 -> zlen conn = cm_nbpts k -> NoDup conn -> (forall n, n ∈ conn -> 0 <= n < nb) ->
  exists fs, sons MicroEdgesGenerator2D (t, conn) fs /\ forall f, f ∈ fs -> good_son 1 nb f.
Proof.
  intros Hk Hd H2 Hl Hnd Hnb. pose proof (model_in _ _ Hk) as Hm. destruct (static_sons k conn nb t Hk Hd ltac:(lia) Hl Hnd Hnb) as (fs & Hs & Hg). rewrite H2 in Hg. destruct Hs as (k' & Hk' & Hn & Hi). cbn [fst snd g_nb g_fill MinusOneSonsGenerator] in *. assert (k' = k) as -> by congruence. injection Hn as Hn. unfold getNumberOfSons2 in Hn. rewrite Hd in Hn. cbn [negb] in Hn.
  assert (M : forall i f, fs @ i = Some f -> if cm_quad k then exists a b m, f.2 = [a; b; m] /\ fillMicroEdge k (2 * i) conn = Ok (NORM_SEG2, [a; m]) /\ fillMicroEdge k (2 * i + 1) conn = Ok (NORM_SEG2, [m; b]) else fillMicroEdge k i conn = Ok f).
  { intros i [t' l] Hf. apply (micro_ok k conn i t' l Hm Hd). left. split; [done|]. by apply Hi. }
  destruct (cm_quad k) eqn:Hq.
  - assert (Hh : forall f, f ∈ fs -> zlen (halves f) = 2). { intros f Hf. apply elem_of_zlook in Hf as [i Hf]. destruct (M i f Hf) as (a & b & m & E & _). unfold halves. by rewrite E. }
    exists (concat (halves <$> fs)). split.
    + exists k. split; [done|]. cbn [fst snd g_nb g_fill MicroEdgesGenerator2D]. unfold getNumberOfMicroEdges. rewrite Hd, H2, Hq. cbn [Z.eqb Pos.eqb]. rewrite halves_len by done. split; [f_equal; lia|]. intros i f Hf. destruct (halves_at fs i f Hh Hf) as (g & Hg' & Hx). pose proof (zlook_Some_lt _ _ _ Hf). destruct (M _ g Hg') as (a & b & m & E & E1 & E2). destruct (Hi _ g Hg') as [_ Hz]. rewrite E in Hz. change (zlen [a; b; m]) with 3 in Hz. unfold halves in Hx. rewrite E in Hx.
      pose proof (Z.div_mod i 2 ltac:(lia)) as Hdm. pose proof (Z.mod_pos_bound i 2 ltac:(lia)). assert (i mod 2 = 0 \/ i mod 2 = 1) as [E0|E0] by lia; rewrite E0 in Hx, Hdm.
      * injection Hx as <-. replace i with (2 * (i / 2)) by lia. split; [done|]. cbn [snd]. change (zlen [a; m]) with 2. lia.
      * injection Hx as <-. replace i with (2 * (i / 2) + 1) by lia. split; [done|]. cbn [snd]. change (zlen [m; b]) with 2. lia.
    + intros f Hf. apply elem_of_list_In, in_concat in Hf as (h & Hh' & Hf). apply elem_of_list_In in Hh', Hf. apply elem_of_list_fmap in Hh' as (g & -> & Hgf). pose proof (Hg g Hgf) as (_ & Hb & _). apply elem_of_zlook in Hgf as [i Hgi]. destruct (M i g Hgi) as (a & b & m & E & _). destruct (Hi i g Hgi) as [E' _].
      assert (Hnd3 : NoDup g.2). { clear -E' Hd Hnd Hm H2 Hl. pose proof (CellProofs.forallb_elem _ _ _ models_sons Hm) as H. unfold sonb in H. rewrite Hd in H. replace (_ || _ || _) with false in H by lia. apply andb_true_iff in H as [_ HS]. unfold fillSon2, getSonType2, fillSon in E'. rewrite Hd in E'. cbn [negb] in E'. destruct (rd (cm_sons k) i) as [s| | |] eqn:Es; [|done..]. cbn [bind] in E'. apply rd_inv in Es.
        pose proof (CellProofs.forallb_elem _ _ _ HS (zlook_elem _ _ _ Es)) as H. cbv beta in H. apply andb_true_iff in H as [H _]. apply andb_true_iff in H as [H _]. apply andb_true_iff in H as [H _]. apply andb_true_iff in H as [Hr Hx]. apply bool_decide_eq_true in Hx. assert (HF : Forall (fun i => 0 <= i < zlen conn) s.2). { apply Forall_forall. intros j Hj. pose proof (CellProofs.forallb_elem _ _ _ Hr Hj) as H. cbv beta in H. lia. } rewrite reads_ok in E' by done. injection E' as <-. cbn [snd]. by apply at_nodup. }
      rewrite E in Hnd3, Hb. unfold halves in Hf. rewrite E in Hf. apply NoDup_cons in Hnd3 as [N1 N2]. apply NoDup_cons in N2 as [N2 _]. rewrite elem_of_cons, elem_of_list_singleton in N1. rewrite elem_of_list_singleton in N2.
      assert (Hin : forall n, n = a \/ n = b \/ n = m -> 0 <= n < nb) by (intros n Hn'; apply Hb; rewrite !elem_of_cons; tauto).
      apply elem_of_cons in Hf as [->|Hf]; [|apply elem_of_list_singleton in Hf as ->]; (apply nodup_good; [eexists; split; [reflexivity|]; done| | |done]); cbn [snd].
      * intros n Hx. rewrite elem_of_cons, elem_of_list_singleton in Hx. apply Hin. tauto.
      * apply NoDup_cons. split; [|apply NoDup_singleton]. rewrite elem_of_list_singleton. tauto.
      * intros n Hx. rewrite elem_of_cons, elem_of_list_singleton in Hx. apply Hin. tauto.
      * apply NoDup_cons. split; [|apply NoDup_singleton]. rewrite elem_of_list_singleton. intros ->. tauto.
  - exists fs. split; [|done]. exists k. split; [done|]. cbn [fst snd g_nb g_fill MicroEdgesGenerator2D]. unfold getNumberOfMicroEdges. rewrite Hd, H2, Hq. cbn [Z.eqb Pos.eqb]. split; [f_equal; lia|]. intros i f Hf. split; [by apply M|]. exact (proj2 (Hi i f Hf)).
Qed.
Lemma all_micro nb cells : Forall (proper 2 nb) cells -> (forall c : cell, c ∈ cells -> c.1 <> NORM_POLYGON /\ c.1 <> NORM_QPOLYG) ->
  exists fss, Forall2 (sons MicroEdgesGenerator2D) cells fss /\ forall f, f ∈ concat fss -> good_son 1 nb f.
Proof.
  intros HF Hp. induction cells as [|c cells IH]; [exists []; split; [constructor|intros f Hf; by apply elem_of_nil in Hf]|]. inversion HF as [|? ? Hc HF']; subst. destruct IH as (fss & H1 & H2); [done|intros d Hd; apply Hp; by right|].
  assert (exists fs, sons MicroEdgesGenerator2D c fs /\ forall f, f ∈ fs -> good_son 1 nb f) as (fs & H3 & H4).
  { specialize (Hp c ltac:(left)). destruct c as [t conn]. destruct Hc as (k & Hk & Hd & Hpl & Hl & Hc). cbn [fst snd] in *. destruct (cm_dyn k) eqn:Hdy.
    - destruct (dyn_types t k Hk Hdy) as [[-> E]|[[-> E]|[[-> E]|[-> E]]]]; try lia; tauto.
    - rewrite (static_not_polyhed t k Hk Hdy) in Hc. destruct Hc as (Hx & Hy & _). apply (static_micro k); auto. }
  exists (fs :: fss). split; [by constructor|]. intros f Hf. cbn [concat] in Hf. apply elem_of_app in Hf as [Hf|Hf]; auto.
Qed.
Lemma micro2_ok m cells fss nb : stores m cells -> has_nodes m nb -> Forall2 (sons MicroEdgesGenerator2D) cells fss -> um_dim m = 2 -> (forall f, f ∈ concat fss -> good_son 1 nb f) ->
  exists m' new dss desc descI revDesc revDescI, explodeMeshIntoMicroEdges m = Ok (m', desc, descI, revDesc, revDescI) /\
    stores m' new /\ typed m' new /\ um_dim m' = 1 /\ um_coords m' = um_coords m /\
    descends fss new dss /\ skyline dss desc descI /\ skyline (owners 0 dss <$> seqZ 0 (zlen new)) revDesc revDescI.
Proof.
  intros Hst Hn Hs Hd Hg. destruct (stores_get m cells Hst) as (conn & connI & Ec & EI & _). pose proof Hn as (co & Eco & _). unfold explodeMeshIntoMicroEdges, checkFullyDefined, getMeshDimension. rewrite EI, Ec, Eco, Hd. cbn [Z.ltb Z.compare ifthrow bind Z.eqb Pos.eqb negb].
  destruct (fast_ok MicroEdgesGenerator2D m cells fss nb Hst Hn Hs) as (m' & H); [lia|rewrite Hd; cbn; lia|rewrite Hd; done|]. rewrite Hd, ?Eco in H. exists m'. exact H.
Qed.

(** * Examples and refutations *)
Definition plane : list cell := [(NORM_TRI3, [0; 1; 2]); (NORM_QUAD4, [1; 3; 4; 2]); (NORM_POLYGON, [3; 5; 4])].
Definition plane_edges : list (list cell) :=
  [[(NORM_SEG2, [0; 1]); (NORM_SEG2, [1; 2]); (NORM_SEG2, [2; 0])]; [(NORM_SEG2, [1; 3]); (NORM_SEG2, [3; 4]); (NORM_SEG2, [4; 2]); (NORM_SEG2, [2; 1])]; [(NORM_SEG2, [3; 5]); (NORM_SEG2, [5; 4]); (NORM_SEG2, [4; 3])]].
Definition shell : list cell := [(NORM_TRI3, [0; 1; 2]); (NORM_TRI3, [0; 3; 1]); (NORM_TRI3, [1; 3; 2]); (NORM_TRI3, [2; 3; 0])].
Definition tetras : list cell := [(NORM_TETRA4, [0; 1; 2; 3]); (NORM_TETRA4, [1; 3; 2; 4])].
Ltac small := intros; repeat match goal with H : _ ∈ _ |- _ => (apply elem_of_cons in H as [->|H]) || (by apply elem_of_nil in H) end; try (cbn; lia).
Lemma plane_proper : Forall (proper 2 6) plane.
Proof. repeat apply Forall_cons_2; [| | |constructor]; (eexists; split; [reflexivity|]; split; [done|]; split; [done|]; split; [done|]; cbn; split; [repeat constructor; cbn; rewrite ?elem_of_cons, ?elem_of_nil; lia|]; split; [small|]; split; [intros E|intros E]; try done). Qed.
Lemma tetras_proper : Forall (proper 3 5) tetras.
Proof. repeat apply Forall_cons_2; [| |constructor]; (eexists; split; [reflexivity|]; split; [done|]; split; [done|]; split; [done|]; cbn; split; [repeat constructor; cbn; rewrite ?elem_of_cons, ?elem_of_nil; lia|]; split; [small|]; split; [intros E|intros E]; try done). Qed.
Lemma shell_proper : Forall (proper 2 4) shell.
Proof. repeat apply Forall_cons_2; [| | | |constructor]; (eexists; split; [reflexivity|]; split; [done|]; split; [done|]; split; [done|]; cbn; split; [repeat constructor; cbn; rewrite ?elem_of_cons, ?elem_of_nil; lia|]; split; [small|]; split; [intros E|intros E]; try done). Qed.
Lemma plane_sons : Forall2 (sons MinusOneSonsGenerator) plane plane_edges.
Proof. repeat constructor; (eexists; split; [reflexivity|]; split; [done|]; intros i f Hf; pose proof (zlook_Some_lt _ _ _ Hf) as Hr; cbn in Hr; unfold zlen in Hr; cbn in Hr; assert (i = 0 \/ i = 1 \/ i = 2 \/ i = 3) as [->|[->|[->| ->]]] by lia; vm_compute in Hf; try done; injection Hf as <-; done). Qed.
Lemma closed_boundary : exists m, stores m shell /\ has_nodes m 4 /\ um_dim m = 2 /\ Forall (proper 2 4) shell /\ buildBoundaryMesh m = UB.
Proof. exists (mk 2 4 shell). destruct (mk_ok 2 4 shell ltac:(lia)) as (H1 & _ & H2). split; [done|]. split; [done|]. split; [done|]. split; [apply shell_proper|]. vm_compute. done. Qed.
Lemma micro3_refuted : exists m, stores m tetras /\ has_nodes m 5 /\ um_dim m = 3 /\ Forall (proper 3 5) tetras /\ explodeMeshIntoMicroEdges m = Throw.
Proof. exists (mk 3 5 tetras). destruct (mk_ok 3 5 tetras ltac:(lia)) as (H1 & _ & H2). split; [done|]. split; [done|]. split; [done|]. split; [apply tetras_proper|]. vm_compute. done. Qed.
Definition line : list cell := [(NORM_SEG2, [0; 1]); (NORM_SEG2, [1; 2])].
Lemma line_proper : Forall (proper 1 3) line.
Proof. repeat apply Forall_cons_2; [| |constructor]; (eexists; split; [reflexivity|]; split; [done|]; split; [done|]; split; [done|]; cbn; split; [repeat constructor; cbn; rewrite ?elem_of_cons, ?elem_of_nil; lia|]; split; [small|]; split; [intros E|intros E]; try done). Qed.
Lemma oriented1_refuted : exists m, stores m line /\ has_nodes m 3 /\ um_dim m = 1 /\ Forall (proper 1 3) line /\ buildDescendingConnectivity2 m = Throw.
Proof. exists (mk 1 3 line). destruct (mk_ok 1 3 line ltac:(lia)) as (H1 & _ & H2). split; [done|]. split; [done|]. split; [done|]. split; [apply line_proper|]. vm_compute. done. Qed.
Lemma dim0_refuted : exists m, stores m [(NORM_POINT1, [0])] /\ has_nodes m 1 /\ um_dim m = 0 /\ buildDescendingConnectivity m = Throw.
Proof. exists (mk 0 1 [(NORM_POINT1, [0])]). destruct (mk_ok 0 1 [(NORM_POINT1, [0])] ltac:(lia)) as (H1 & _ & H2). split; [done|]. split; [done|]. split; [done|]. vm_compute. done. Qed.
(** Sons without a node twice that have three nodes at most are coherent. *)
Lemma perm_small (l l' : list Z) : (length l <= 3)%nat -> NoDup l -> length l = length l' -> (forall n, n ∈ l <-> n ∈ l') -> rotation l l' \/ rotation (rev l) l'.
Proof.
  intros H3 Hnd Hl He. destruct l as [|a [|b [|c [|d l]]]]; destruct l' as [|a' [|b' [|c' [|d' l']]]]; try (cbn in *; lia).
  - left. exists 0%nat. done.
  - assert (a ∈ [a']) as H by (apply He; left). apply elem_of_list_singleton in H as ->. left. exists 0%nat. split; [cbn; lia|done].
  - apply NoDup_cons in Hnd as [N1 _]. rewrite elem_of_list_singleton in N1. assert (a ∈ [a'; b']) as H1 by (apply He; left). assert (b ∈ [a'; b']) as H2 by (apply He; right; left). rewrite elem_of_cons, elem_of_list_singleton in H1, H2. left. destruct H1 as [->| ->], H2 as [->| ->]; try done; [exists 0%nat|exists 1%nat]; (split; [cbn; lia|done]).
  - apply NoDup_cons in Hnd as [N1 N2]. apply NoDup_cons in N2 as [N2 _]. rewrite elem_of_list_singleton in N2. rewrite elem_of_cons, elem_of_list_singleton in N1.
    assert (a ∈ [a'; b'; c']) as H1 by (apply He; left). assert (b ∈ [a'; b'; c']) as H2 by (apply He; right; left). assert (c ∈ [a'; b'; c']) as H4 by (apply He; right; right; left). rewrite !elem_of_cons, elem_of_list_singleton in H1, H2, H4 || rewrite !elem_of_cons in H1, H2, H4.
    destruct H1 as [->|[->|H1]], H2 as [->|[->|H2]], H4 as [->|[->|H4]]; try (exfalso; tauto).
    all: repeat match goal with H : _ ∈ [] |- _ => by apply elem_of_nil in H | H : _ \/ _ ∈ [] |- _ => destruct H as [->|H] end; try (exfalso; tauto); try subst; try (exfalso; tauto).
    all: first [left; exists 0%nat; split; [cbn; lia|reflexivity] | left; exists 1%nat; split; [cbn; lia|reflexivity] | left; exists 2%nat; split; [cbn; lia|reflexivity] | right; exists 0%nat; split; [cbn; lia|reflexivity] | right; exists 1%nat; split; [cbn; lia|reflexivity] | right; exists 2%nat; split; [cbn; lia|reflexivity]].
Qed.
Lemma small_coherent (fs : list cell) : (forall f, f ∈ fs -> zlen f.2 <= 3 /\ NoDup f.2) -> coherent fs.
Proof. intros H f f' Hf Hf' [Hl He]. destruct (H f Hf) as [H3 Hnd]. apply perm_small; [unfold zlen in H3; lia|done|unfold zlen in Hl; lia|exact He]. Qed.
Lemma plane_coherent : coherent (concat plane_edges).
Proof. apply small_coherent. intros f Hf. cbn in Hf. repeat (apply elem_of_cons in Hf as [->|Hf]; [split; [done|cbn; repeat constructor; rewrite ?elem_of_list_singleton, ?elem_of_nil; lia]|]). by apply elem_of_nil in Hf. Qed.
