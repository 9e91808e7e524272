(** Meshes of triangles and quadrangles. *)
From Coq Require Import QArith ZifyBool ZifyNat.
From Verif Require Import Base DataArray ArrLib StdModel RenumSpec RenumModel SearchSpec CellTable UmModel UmSpec UmProofs10 UcModel UcSpec UcProofs6 TyModel TySpec TyProofs TyProofs2 TyProofs3 TyProofs4 TyProofs5 TyProofs6 TyProofs7 TyProofs8.
Local Open Scope Z_scope.

Definition mixed_cells : list cell := [(NORM_TRI3, [0; 1; 2]); (NORM_QUAD4, [1; 3; 4; 2]); (NORM_TRI3, [3; 5; 4]); (NORM_TRI3, [3; 4; 1]); (NORM_QUAD4, [0; 1; 3; 5])].
Definition sorted_cells : list cell := [(NORM_TRI3, [0; 1; 2]); (NORM_TRI3, [3; 5; 4]); (NORM_TRI3, [3; 4; 1]); (NORM_QUAD4, [1; 3; 4; 2]); (NORM_QUAD4, [0; 1; 3; 5])].
Definition mixed : umesh := mk 2 6 mixed_cells.
Definition sorted : umesh := mk 2 6 sorted_cells.
Lemma mixed_stores : stores mixed mixed_cells. Proof. apply mk_ok. lia. Qed.
Lemma sorted_stores : stores sorted sorted_cells. Proof. apply mk_ok. lia. Qed.
Lemma sorted_typed : typed sorted sorted_cells. Proof. apply mk_ok. lia. Qed.
Lemma sorted_contiguous : contiguous (kinds sorted_cells).
Proof. apply contig_runs. vm_compute. repeat constructor; rewrite ?elem_of_cons, ?elem_of_nil; intros H; repeat destruct H as [H|H]; done. Qed.
Lemma mixed_early : early (kinds mixed_cells).
Proof.
  intros i s t H1 H2 Hne Hin u Hu. pose proof (zlook_Some_lt _ _ _ H2) as H. pose proof (zlook_Some_lt _ _ _ H1) as H'. change (zlen (kinds mixed_cells)) with 5 in *. assert (i = 1 \/ i = 2 \/ i = 3 \/ i = 4) as C by lia. destruct C as [->|[->|[-> | ->]]].
  - injection H2 as <-. apply elem_of_list_In in Hin. cbn in Hin. destruct Hin as [|[]]; done.
  - apply elem_of_list_In. apply elem_of_list_In in Hu. vm_compute in Hu |- *. tauto.
  - apply elem_of_list_In. apply elem_of_list_In in Hu. vm_compute in Hu |- *. tauto.
  - apply elem_of_list_In. apply elem_of_list_In in Hu. vm_compute in Hu |- *. tauto.
Qed.
Definition endless_cells : list cell := [(NORM_TRI3, [0; 1; 2]); (NORM_QUAD4, [1; 3; 4; 2]); (NORM_TRI3, [3; 5; 4]); (NORM_POLYGON, [0; 1; 3; 5; 4])].
Lemma endless_example : exists m cells, stores m cells /\ typed m cells /\ has_nodes m 6 /\ um_dim m = 2 /\ (forall c, c ∈ cells -> forall n, n ∈ c.2 -> 0 <= n < 6) /\ forall fuel, rearrange2ConsecutiveCellTypes fuel m = Fuel.
Proof.
  destruct (mk_ok 2 6 endless_cells ltac:(lia)) as (H1 & H2 & H3). exists (mk 2 6 endless_cells), endless_cells. split; [done|]. split; [done|]. split; [done|]. split; [done|]. split.
  - intros c Hc n Hn. assert (H : forallb (fun c : cell => forallb (fun n => (0 <=? n) && (n <? 6)) c.2) endless_cells = true) by (vm_compute; reflexivity). rewrite forallb_forall in H. specialize (H c ltac:(apply elem_of_list_In; done)). cbv beta in H. rewrite forallb_forall in H. specialize (H n ltac:(apply elem_of_list_In; done)). lia.
  - intros fuel. apply (rearrange_hangs _ endless_cells); [done|eexists; reflexivity|]. intros He. specialize (He 2 NORM_QUAD4 NORM_TRI3 eq_refl eq_refl ltac:(discriminate) ltac:(apply elem_of_list_In; vm_compute; tauto) NORM_POLYGON ltac:(apply elem_of_list_In; vm_compute; tauto)). apply elem_of_list_In in He. vm_compute in He. destruct He as [|[|[]]]; discriminate.
Qed.
Lemma sorted_described : describes (kinds sorted_cells) [NORM_TRI3; 2; 0; NORM_QUAD4; 2; -1] [Some [2; 0]] [(NORM_TRI3, [2; 0]); (NORM_QUAD4, [0; 1])].
Proof.
  split; [done|]. intros k t ids H. pose proof (zlook_Some_lt _ _ _ H) as E. rewrite !zlen_cons in E. change (zlen (@nil (Z * list Z))) with 0 in E. assert (k = 0 \/ k = 1) as [-> | ->] by lia; injection H as <- <-.
  - split; [done|]. split; [done|]. split; [apply elem_of_list_In; cbn; tauto|]. exists 0. split; [done|]. right. split; [done|]. split; [done|]. intros v Hv. change (number (kinds sorted_cells) NORM_TRI3) with 3. apply elem_of_list_In in Hv. cbn in Hv. lia.
  - split; [done|]. split; [done|]. split; [apply elem_of_list_In; cbn; tauto|]. exists (-1). split; [done|]. left. done.
Qed.
Lemma numbers_example : exists m cells, stores m cells /\ typed m cells /\ is_Some (um_coords m) /\ contiguous (kinds cells) /\ number (kinds cells) NORM_TRI3 = 3 /\
  checkTypeConsistencyAndContig m [NORM_TRI3; 100; -1; NORM_QUAD4; 2; -1] [] = Ok None /\
  checkTypeConsistencyAndContig m [NORM_TRI3; 5; -1] [] = Ok (Some [Some 0; Some 1; Some 2; None; None]) /\
  checkTypeConsistencyAndContig m [NORM_TRI3; 1; -1] [] = UB.
Proof.
  exists sorted, sorted_cells. split; [exact sorted_stores|]. split; [exact sorted_typed|]. split; [eexists; reflexivity|]. split; [exact sorted_contiguous|]. split; [reflexivity|]. split; [vm_compute; reflexivity|]. split; vm_compute; reflexivity.
Qed.
Lemma order_example : exists m cells, stores m cells /\ typed m cells /\ is_Some (um_coords m) /\ contiguous (kinds cells) /\
  describes (kinds cells) [NORM_QUAD4; 1; 0; NORM_TRI3; 1; 0] [Some [0]] [(NORM_QUAD4, [0]); (NORM_TRI3, [0])] /\
  checkTypeConsistencyAndContig m [NORM_QUAD4; 1; 0; NORM_TRI3; 1; 0] [Some [0]] = UB.
Proof.
  exists sorted, sorted_cells. split; [exact sorted_stores|]. split; [exact sorted_typed|]. split; [eexists; reflexivity|]. split; [exact sorted_contiguous|]. split; [|vm_compute; reflexivity].
  split; [done|]. intros k t ids H. pose proof (zlook_Some_lt _ _ _ H) as E. rewrite !zlen_cons in E. change (zlen (@nil (Z * list Z))) with 0 in E. assert (k = 0 \/ k = 1) as [-> | ->] by lia; injection H as <- <-.
  - split; [done|]. split; [done|]. split; [apply elem_of_list_In; cbn; tauto|]. exists 0. split; [done|]. right. split; [done|]. split; [done|]. intros v Hv. change (number (kinds sorted_cells) NORM_QUAD4) with 2. apply elem_of_list_In in Hv. cbn in Hv. lia.
  - split; [done|]. split; [done|]. split; [apply elem_of_list_In; cbn; tauto|]. exists 0. split; [done|]. right. split; [done|]. split; [done|]. intros v Hv. change (number (kinds sorted_cells) NORM_TRI3) with 3. apply elem_of_list_In in Hv. cbn in Hv. lia.
Qed.

(** The same facts, without [wp]. *)
Lemma give_plain m cells t k : stores m cells -> GetCellModel t = Ok k -> 0 <= um_dim m -> giveCellsWithType m t = if um_dim m =? cm_dim k then Ok (ranks_of (kinds cells) t) else Throw.
Proof.
  intros Hs Hk Hd. rewrite (give_ok m cells t Hs), Hk. unfold getMeshDimension. destruct (Z.ltb_spec (um_dim m) (-1)); [lia|]. cbn [ifthrow bind]. destruct (um_dim m =? cm_dim k); done.
Qed.
Lemma distribution_ok m cells : stores m cells -> typed m cells -> contiguous (kinds cells) -> getDistributionOfTypes m = Ok (distribution (kinds cells)).
Proof. intros H1 H2 H3. pose proof (distribution_wp m cells H1 H2) as W. destruct (getDistributionOfTypes m); cbn [wp] in W; try done. destruct W as [_ ->]. done. Qed.
Lemma distribution_throw m cells : stores m cells -> typed m cells -> ~ contiguous (kinds cells) -> getDistributionOfTypes m = Throw.
Proof. intros H1 H2 H3. pose proof (distribution_wp m cells H1 H2) as W. destruct (getDistributionOfTypes m); cbn [wp] in W; try done. tauto. Qed.
Lemma keepSpecified_ok m cells t ids : stores m cells -> typed m cells -> 0 <= um_dim m -> contiguous (kinds cells) -> (forall v, v ∈ ids -> 0 <= v < number (kinds cells) t) ->
  exists m' sel, keepSpecifiedCells m t ids = Ok m' /\ picked cells (kept (kinds cells) t ids) sel /\ stores m' sel /\ typed m' sel /\ um_dim m' = um_dim m /\ um_coords m' = um_coords m.
Proof. intros H1 H2 H3 H4 H5. pose proof (keepSpecified_wp m cells t ids H1 H2 H3) as W. destruct (keepSpecifiedCells m t ids) as [m'| | |]; cbn [wp] in W; try tauto. destruct W as (_ & _ & sel & W). exists m', sel. tauto. Qed.
Lemma keepSpecified_throw m cells t ids : stores m cells -> typed m cells -> 0 <= um_dim m -> ~ (contiguous (kinds cells) /\ forall v, v ∈ ids -> 0 <= v < number (kinds cells) t) -> keepSpecifiedCells m t ids = Throw.
Proof. intros H1 H2 H3 H4. pose proof (keepSpecified_wp m cells t ids H1 H2 H3) as W. destruct (keepSpecifiedCells m t ids) as [m'| | |]; cbn [wp] in W; tauto. Qed.
Lemma byRange_ok vals bounds : nondecreasing bounds -> 2 <= zlen bounds -> (forall v, v ∈ vals -> exists p, in_slot bounds v p) ->
  exists slots rests used, splitByValueRange (vec vals) bounds = Ok (slots, rests, used) /\ zlen slots = zlen vals /\ zlen rests = zlen vals /\ increasing used /\ (forall p, p ∈ used <-> p ∈ slots) /\
    forall i v, vals @ i = Some v -> exists p a, slots @ i = Some p /\ in_slot bounds v p /\ bounds @ p = Some a /\ rests @ i = Some (v - a).
Proof.
  intros H1 H2 H3. pose proof (byRange_wp vals bounds H1) as W. destruct (splitByValueRange (vec vals) bounds) as [[[c r] u]| | |]; cbn [wp] in W; try tauto.
  - destruct W as (_ & W1 & W2 & W3 & W4 & W5). exists c, r, u. tauto.
  - exfalso. destruct W as [W|(v & Hv & Hn)]; [lia|]. destruct (H3 v Hv) as [p Hp]. exact (Hn p Hp).
Qed.
Lemma byRange_throw vals bounds : nondecreasing bounds -> (zlen bounds < 2 \/ exists v, v ∈ vals /\ forall p, ~ in_slot bounds v p) -> splitByValueRange (vec vals) bounds = Throw.
Proof.
  intros H1 H2. pose proof (byRange_wp vals bounds H1) as W. destruct (splitByValueRange (vec vals) bounds) as [[[c r] u]| | |]; cbn [wp] in W; try tauto.
  exfalso. destruct W as (W0 & _ & _ & W3 & _). destruct H2 as [|(v & Hv & Hn)]; [lia|]. apply elem_of_zlook in Hv as [i Hi]. destruct (W3 i v Hi) as (p & a & _ & Hp & _). exact (Hn p Hp).
Qed.
Lemma profile_ok m cells pfl smart : stores m cells -> cells <> [] -> contiguous (kinds cells) -> (forall v, v ∈ pfl -> 0 <= v < zlen cells) ->
  let ts := present (kinds cells) pfl in let q := pieces (kinds cells) pfl smart 0 ts in splitProfilePerType m (vec pfl) smart = Ok (q.1, entries (kinds cells) pfl <$> ts, q.2).
Proof. intros H1 H2 H3 H4. pose proof (profile_wp m cells pfl smart H1) as W. destruct (splitProfilePerType m (vec pfl) smart) as [r| | |]; cbn [wp] in W; try tauto. destruct W as (_ & _ & _ & ->). done. Qed.
Lemma profile_throw m cells pfl smart : stores m cells -> ~ (cells <> [] /\ contiguous (kinds cells) /\ forall v, v ∈ pfl -> 0 <= v < zlen cells) -> splitProfilePerType m (vec pfl) smart = Throw.
Proof. intros H1 H2. pose proof (profile_wp m cells pfl smart H1) as W. destruct (splitProfilePerType m (vec pfl) smart) as [r| | |]; cbn [wp] in W; tauto. Qed.
Lemma lev_plain m cells order : stores m cells -> (forall t, t ∈ kinds cells -> t ∈ order) -> exists lev nbs, getLevArrPerCellTypes m order = Ok (lev, nbs) /\ zlen lev = zlen cells /\ zlen nbs = zlen order /\
  (forall i t, kinds cells @ i = Some t -> exists p, lev @ i = Some p /\ first_pos order t p) /\ (forall t p, first_pos order t p -> nbs @ p = Some (number (kinds cells) t)) /\
  (forall t p, order @ p = Some t -> ~ first_pos order t p -> nbs @ p = Some 0).
Proof.
  intros Hs Hin. pose proof (lev_wp m cells order Hs) as W. destruct (getLevArrPerCellTypes m order) as [[lev nbs]| | |]; cbn [wp fst snd] in W; try tauto; [exists lev, nbs; tauto|]. exfalso. destruct W as (t & H1 & H2). auto.
Qed.
