From Verif Require Import Base DataArray ArrLib RenumSpec SearchSpec StdProofs StrModel StrSpec StrProofs StrProofs2 StrProofs3 StrProofs4 StrProofs5 StrProofs6 StrProofs7.
From Coq Require Import ZifyBool ZifyNat.

Lemma cell_bij ngs id : dim_ok ngs -> Forall (Z.lt 1) ngs -> grid_nb (cells_st ngs) < 2147483648 -> 0 <= id < grid_nb (cells_st ngs) ->
  exists pos, getLocationFromCellId ngs id = Ok pos /\ in_grid (cells_st ngs) pos /\ forall i j k, take (length ngs) [i; j; k] = pos -> getCellIdFromPos ngs i j k = Ok id.
Proof.
  intros Hd Hp Hb Hid. destruct (cell_loc_ok ngs id Hp Hb Hid) as (pos & H1 & H2 & H3). exists pos. split; [done|]. split; [done|]. intros i j k Ht. rewrite <- H3. by apply cell_id_ok.
Qed.
Lemma node_bij ngs id : dim_ok ngs -> Forall (Z.lt 0) ngs -> grid_nb ngs < 2147483648 -> 0 <= id < grid_nb ngs ->
  exists pos, getLocationFromNodeId ngs id = Ok pos /\ in_grid ngs pos /\ forall i j k, take (length ngs) [i; j; k] = pos -> getNodeIdFromPos ngs i j k = Ok id.
Proof.
  intros Hd Hp Hb Hid. destruct (node_loc_ok ngs id Hp Hb Hid) as (pos & H1 & H2 & H3). exists pos. split; [done|]. split; [done|]. intros i j k Ht. rewrite <- H3. by apply node_id_ok.
Qed.
Lemma enum_box st part ids : box_in st part -> enumerates (cells_of st part) ids <-> ids = box_ids st part.
Proof. intros Hb. split; [intros H; eapply enumerates_ext; [exact H|by apply box_ids_enum]|intros ->; by apply box_ids_enum]. Qed.
Lemma explicit_enum st part : dim_ok st -> box_in st part -> exists ids, BuildExplicitIdsFrom st part = Ok ids /\ enumerates (cells_of st part) ids.
Proof. intros Hd Hb. exists (box_ids st part). split; [by apply explicit_ok|by apply box_ids_enum]. Qed.
Lemma isPart_iff ids st part : dim_ok st -> Forall (Z.lt 0) st -> Forall (Z.le 0) ids ->
  IsPartStructured ids st = Ok (Some part) <-> box_in st part /\ nonempty_box part /\ enumerates (cells_of st part) ids.
Proof.
  intros Hd Hp Hi. assert (box_in st part /\ nonempty_box part /\ enumerates (cells_of st part) ids <-> is_box st ids part) as ->.
  { unfold is_box. split; intros (H1 & H2 & H3); (split; [done|]); (split; [done|]); by apply enum_box. }
  destruct (decide (ids = [])) as [->|Hne].
  - assert (IsPartStructured [] st = Throw) as ->.
    { unfold IsPartStructured. replace ((zlen st <? 1) || (3 <? zlen st)) with false by (unfold dim_ok in Hd; lia). cbn [ifthrow]. destruct (tmp2_ok st ltac:(unfold dim_ok in Hd; lia)) as (tmp2 & Ht2 & Hs). rewrite Ht2. done. }
    split; [done|]. intros (Hb & Hn & He). pose proof (box_ids_elem st part (grid_id st (fst <$> part)) (box_in_len _ _ Hb)) as Hx. rewrite <- He in Hx. exfalso. eapply elem_of_nil. apply Hx. exists (fst <$> part). split; [by apply box_lo_in|done].
  - pose proof (isPart_wp ids st Hd Hp Hne Hi) as Hw. destruct (IsPartStructured ids st) as [[part'|]| | |] eqn:E; cbn [wp] in Hw.
    + rewrite Hw. split; [by intros [= <-]|by intros ->].
    + split; [done|]. intros H. destruct Hw. eauto.
    + split; [done|]. intros (Hb & _ & ->). destruct Hw as (id & Hid & Hge). apply (box_id_in st part) in Hid; [lia|done].
    + done.
    + done.
Qed.
Lemma isPart_total ids st : dim_ok st -> Forall (Z.lt 0) st -> ids <> [] -> Forall (fun id => 0 <= id < grid_nb st) ids -> exists o, IsPartStructured ids st = Ok o.
Proof.
  intros Hd Hp Hne Hi. assert (Forall (Z.le 0) ids) as Hi0 by (eapply Forall_impl; [exact Hi|]; simpl; lia). pose proof (isPart_wp ids st Hd Hp Hne Hi0) as Hw. destruct (IsPartStructured ids st) as [o| | |] eqn:E; cbn [wp] in Hw; try done; [eauto|]. exfalso. destruct Hw as (id & Hid & Hge). rewrite Forall_forall in Hi. specialize (Hi id Hid). simpl in Hi. lia.
Qed.
Lemma isPart_empty st : IsPartStructured [] st = Throw.
Proof.
  unfold IsPartStructured. destruct ((zlen st <? 1) || (3 <? zlen st)) eqn:E; [done|]. cbn [ifthrow]. destruct (tmp2_ok st ltac:(lia)) as (tmp2 & Ht2 & Hs). rewrite Ht2. done.
Qed.
Lemma isPart_inverse st part : dim_ok st -> box_in st part -> nonempty_box part -> exists ids, BuildExplicitIdsFrom st part = Ok ids /\ IsPartStructured ids st = Ok (Some part).
Proof.
  intros Hd Hb Hn. exists (box_ids st part). split; [by apply explicit_ok|]. apply isPart_iff; [done| | |].
  - clear -Hb Hn. induction Hb; inversion Hn; subst; constructor; [lia|auto].
  - apply Forall_forall. intros x Hx. apply (box_id_in st part) in Hx; [lia|done].
  - split; [done|]. split; [done|]. by apply box_ids_enum.
Qed.
Lemma extractBool_enum st f part out : dim_ok st -> box_in st part -> zlen f = grid_nb st ->
  exists ids r, enumerates (cells_of st part) ids /\ ExtractFieldOfBoolFrom st f part out = Ok r /\ Forall2 (fun c x => f @ c = Some x) ids r.
Proof. intros Hd Hb Hf. destruct (extractBool_ok st f part out Hd Hb Hf) as (r & H1 & H2). exists (box_ids st part), r. split; [by apply box_ids_enum|done]. Qed.
Lemma extractDouble_enum {A} st (f : da A) part : dim_ok st -> box_in st part -> da_alloc f = true -> da_wf f -> da_nt f = grid_nb st ->
  exists ids r, enumerates (cells_of st part) ids /\ ExtractFieldOfDoubleFrom st (Some f) part = Ok (DA true (da_nc f) r) /\ zlen r = zlen ids * da_nc f /\
    forall i c j, ids @ i = Some c -> ij (DA true (da_nc f) r) i j = ij f c j.
Proof. intros Hd Hb Ha Hwf Hf. destruct (extractDouble_ok st f part Hd Hb Ha Hwf Hf) as (r & H1 & H2). exists (box_ids st part), r. split; [by apply box_ids_enum|done]. Qed.
Lemma fmp_enum m st crit red : dim_ok st -> Forall (fun n => 0 <= n <= maxId) st -> zlen crit = grid_nb st -> 0 <= m -> Forall (fun n => m <= n) st ->
  exists r part, FindMinimalPartOf m st crit red = Ok (nb_true crit, r, part) /\
    (exists ids, enumerates (cells_of st part) ids /\ Forall2 (fun c x => crit @ c = Some x) ids r) /\
    box_in st part /\ (forall pos, true_at st crit pos -> in_box part pos) /\ Forall (fun r => m <= snd r - fst r) part /\
    (forall a r, part @ a = Some r -> snd r - fst r = m \/ (exists pos, true_at st crit pos /\ pos @ a = Some (fst r)) /\ (exists pos, true_at st crit pos /\ pos @ a = Some (snd r - 1))).
Proof.
  intros Hd Hs Hc Hm Hn. destruct (fmp_ok m st crit red Hd Hs Hc Hm Hn) as (r & part & H1 & H2 & H3 & H4). exists r, part. split; [done|]. split; [|done]. exists (box_ids st part). split; [by apply box_ids_enum|done].
Qed.
Lemma nb_true_len l : nb_true l = Z.of_nat (length (filter (fun b => b = true) l)).
Proof. induction l as [|[] l IH]; [done| |]; rewrite filter_cons; cbn [nb_true decide]; simpl; lia. Qed.
Lemma switch_outside : SwitchOnIdsFrom [3; 2] [(2, 4); (1, 2)] (replicate 6 false) = UB.
Proof. vm_compute. done. Qed.
