(** rearrange2ConsecutiveCellTypes, splitByType, getDistributionOfTypes. *)
From Coq Require Import QArith ZifyBool ZifyNat.
From Verif Require Import Base DataArray ArrLib StdModel StdProofs FillLib RenumSpec RenumModel RenumProofs SearchSpec SetsModel SetsProofs SearchProofs PermProofs SkyModel SkyProofs SkyProofs3 IndexSpec IndexProofs3 IndexProofs6 CellTable UmModel UmSpec UmProofs UmProofs2 UmProofs3 UmProofs8 UmProofs10 UcModel UcProofs3 UcProofs5 DsProofs4 DsProofs5 TyModel TySpec TyProofs TyProofs2 TyProofs3 TyProofs4.
Local Open Scope Z_scope.

Lemma nlower_succ q (l : list Z) : nlower (q + 1) l = nlower q l + SearchSpec.occ q l.
Proof.
  induction l as [|z l IH] using rev_ind; [done|]. rewrite !nlower_snoc, occ_snoc. destruct (Z.ltb_spec z (q + 1)), (Z.ltb_spec z q), (Z.eqb_spec z q); lia.
Qed.
Lemma nlower_zero (l : list Z) : (forall v, v ∈ l -> 0 <= v) -> nlower 0 l = 0.
Proof. induction l as [|z l IH] using rev_ind; [done|]. intros H. rewrite nlower_snoc, IH by (intros v Hv; apply H, elem_of_app; tauto). specialize (H z ltac:(apply elem_of_app; right; apply elem_of_list_singleton; done)). destruct (Z.ltb_spec z 0); lia. Qed.
Section Fill.
Variables (cells : list cell) (conn connI : list Z) (types : list Z).
Hypothesis Hsky : skyline (pk <$> cells) conn connI.
Hypothesis Hnd : NoDup types.
Hypothesis Hall : forall t, t ∈ kinds cells -> t ∈ types.
Let l := kinds cells.
Definition levs : list Z := (fun t => find_if (fun x => x =? t) types) <$> l.
Lemma levs_look i t : l @ i = Some t -> exists q, levs @ i = Some q /\ types @ q = Some t.
Proof.
  intros H. unfold levs. rewrite zlook_fmap, H. eexists. split; [reflexivity|]. destruct (findpos types t) as (P1 & P2 & P3). apply P2. intros E. apply P1 in E. apply E, Hall. eapply zlook_elem. exact H.
Qed.
Lemma levs_inv i q t : types @ q = Some t -> levs @ i = Some q <-> l @ i = Some t.
Proof.
  intros Hq. split.
  - intros H. unfold levs in H. rewrite zlook_fmap in H. destruct (l @ i) as [u|] eqn:Eu; [|done]. destruct (levs_look i u Eu) as (q' & Hq' & Hu). unfold levs in Hq'. rewrite zlook_fmap, Eu in Hq'. cbn in H, Hq'. assert (q' = q) as -> by congruence. congruence.
  - intros H. destruct (levs_look i t H) as (q' & Hq' & Hu). rewrite Hq'. f_equal. eapply (NoDup_zlook types); eauto.
Qed.
Lemma levs_len : zlen levs = zlen cells.
Proof. unfold levs. rewrite zlen_fmap. apply zlen_kinds. Qed.
Lemma fill_ok k : zlen k = zlen cells -> (forall i v, levs @ i = Some v -> k @ i = Some (nlower v levs + SearchSpec.occ v (take (Z.to_nat i) levs))) ->
  exists n, foldM (fun '(ret, newCellId) type =>
    forZ 0 (zlen cells) (fun i '(ret, newCellId) =>
      let* t := typeAt conn connI i in
      if t =? type then (let* ret := wr ret i newCellId in Ok (ret, newCellId + 1)) else Ok (ret, newCellId)) (ret, newCellId)) types (replicate (length cells) (-1), 0) = Ok (k, n).
Proof.
  intros Hk Hv. pose proof levs_len as Hll. pose proof (zlen_nonneg cells) as Hnn.
  match goal with |- context [foldM ?f ?a ?s] => assert (W : wp (foldM f a s) (fun r => r.1 = k) False) end; [|apply wp_ok in W as ([r n] & -> & Hr); cbn [fst] in Hr; subst r; eauto].
  apply (wp_foldM _ (fun pre '(ret, newCellId) => newCellId = nlower (zlen pre) levs /\ zlen ret = zlen cells /\ forall i v, levs @ i = Some v -> v < zlen pre -> ret @ i = k @ i)).
  - change (zlen (@nil Z)) with 0. split; [symmetry; apply nlower_zero; intros v Hin; apply elem_of_zlook in Hin as [i Hi]; unfold levs in Hi; rewrite zlook_fmap in Hi; destruct (l @ i); [|done]; injection Hi as <-; apply findpos|]. split; [rewrite zlen_replicate; unfold zlen; lia|].
    intros i v Hi Hneg. exfalso. unfold levs in Hi. rewrite zlook_fmap in Hi. destruct (l @ i); [|done]. injection Hi as <-. pose proof (findpos types z) as (_ & _ & H). lia.
  - intros pre type post [ret n] E (-> & Hrl & Hret). rewrite zlen_app. change (zlen [type]) with 1. assert (Htq : types @ zlen pre = Some type) by (rewrite E, zlook_app_r by lia; rewrite Z.sub_diag; done).
    apply (wp_forZ (fun i '(ret, n) => n = nlower (zlen pre) levs + SearchSpec.occ (zlen pre) (take (Z.to_nat i) levs) /\ zlen ret = zlen cells /\ (forall j v, levs @ j = Some v -> v < zlen pre -> ret @ j = k @ j) /\ forall j, j < i -> levs @ j = Some (zlen pre) -> ret @ j = k @ j)); [lia| | |].
    + split; [change (take (Z.to_nat 0) levs) with (@nil Z); change (SearchSpec.occ (zlen pre) []) with 0; lia|]. split; [done|]. split; [done|]. intros j Hj Hq. apply zlook_Some_lt in Hq. lia.
    + intros i [r n] Hi (-> & Hrl' & Hr1 & Hr2). destruct (zlook_lt l i) as [t Ht]; [unfold l; rewrite zlen_kinds; lia|]. rewrite (typeAt_ok _ _ _ Hsky _ _ Ht). cbn [bind]. destruct (levs_look i t Ht) as (q & Hq & Htt). rewrite (occ_take_succ _ _ _ _ Hq). destruct (Z.eqb_spec t type) as [->|Hne].
      * assert (Hq' : levs @ i = Some (zlen pre)) by (apply (levs_inv i _ type Htq); done). assert (q = zlen pre) as -> by congruence. rewrite decide_True by done. rewrite wr_ok by lia. cbn [bind wp]. split; [lia|]. split; [rewrite zlen_zset; done|]. split.
        -- intros j v Hj Hlt. rewrite zlook_zset by lia. destruct (Z.eqb_spec j i) as [->|]; [|eauto]. assert (v = zlen pre) by congruence. lia.
        -- intros j Hj Hjq. rewrite zlook_zset by lia. destruct (Z.eqb_spec j i) as [->|]; [rewrite (Hv i _ Hq'); done|]. apply Hr2; [lia|done].
      * rewrite decide_False; [|intros ->; rewrite Htq in Htt; congruence]. cbn [wp]. split; [lia|]. split; [done|]. split; [done|]. intros j Hj Hjq. destruct (decide (j = i)) as [->|]; [|apply Hr2; [lia|done]]. assert (q = zlen pre) as -> by congruence. rewrite Htq in Htt. congruence.
    + intros [r n] (-> & Hrl' & Hr1 & Hr2). split; [rewrite nlower_succ; rewrite take_ge by (unfold zlen in *; lia); done|]. split; [done|]. intros i v Hi Hlt. destruct (decide (v = zlen pre)) as [->|]; [|apply (Hr1 i v Hi); lia]. apply Hr2; [|done]. apply zlook_Some_lt in Hi. lia.
  - intros [ret n] (_ & Hrl & Hret). cbn [fst]. apply zlook_ext_lt; [lia|]. intros i Hi. destruct (zlook_lt levs i) as [q Hq]; [lia|]. apply (Hret i q Hq). unfold levs in Hq. rewrite zlook_fmap in Hq. destruct (l @ i) as [t|] eqn:Et; [|done]. destruct (levs_look i t Et) as (q' & Hq' & Hqt). unfold levs in Hq'. rewrite zlook_fmap, Et in Hq'. cbn in Hq, Hq'. assert (q' = q) as -> by congruence. apply zlook_Some_lt in Hqt. lia.
Qed.
End Fill.
Lemma rearrange_ok m cells fuel : stores m cells -> is_Some (um_coords m) -> early (kinds cells) -> (length cells < fuel)%nat ->
  exists m' k sel, rearrange2ConsecutiveCellTypes fuel m = Ok (m', k) /\ stores m' sel /\ typed m' sel /\ um_dim m' = um_dim m /\ um_coords m' = um_coords m /\ moved cells sel k /\ contiguous (kinds sel) /\ in_order (firsts (kinds cells)) (kinds sel).
Proof.
  intros Hs [co Eco] He Hf. destruct (stores_get m cells Hs) as (conn & connI & Ec & EI & Hsky & _). unfold rearrange2ConsecutiveCellTypes, checkFullyDefined. rewrite Ec, EI, Eco, (types_ok cells conn connI _ Hsky), (numCells_ok m cells Hs). cbn [bind].
  destruct (loop_ends cells conn connI Hsky fuel He) as ([i types] & E & Et); [unfold kinds; rewrite fmap_length; done|]. cbn [snd] in Et. subst types.
  change (whileM fuel (fun '(i, types) => Ok (negb (i =? zlen cells) && negb (zlen types =? zlen (typesOf cells)))) _ (0, [])) with (whileM fuel (cond1 (zlen cells) (zlen (typesOf cells))) (step1 conn connI (zlen cells)) (0, [])).
  rewrite E. cbn [bind]. pose proof (zlen_nonneg cells). rewrite alloc_ok by lia. cbn [bind]. rewrite Z.mul_1_r. unfold malloc. rewrite replicate_length. replace (Z.to_nat (zlen cells)) with (length cells) by (unfold zlen; lia).
  set (types := firsts (kinds cells)). assert (Hall : forall t, t ∈ kinds cells -> t ∈ types) by (intros t; apply firsts_elem). assert (Hnd : NoDup types) by apply firsts_nodup.
  destruct (perLevel_ok (vec (levs cells types))) as (k & Ek & Hk & Hv); [done|done|]. rewrite da_nt_vec, levs_len in Hk. cbn [vec da_vals] in Hv.
  destruct (fill_ok cells conn connI types Hsky Hnd Hall k Hk Hv) as (n & ->). cbn [bind].
  destruct (perLevel_sorts (vec (levs cells types))) as (k' & Ek' & Hperm & Hord); [done|done|]. assert (k' = k) as ->. { rewrite Ek' in Ek. injection Ek as Ek. apply (inj (fmap (M:=list) (@Some Z))) in Ek. done. } rewrite da_nt_vec, levs_len in Hperm. cbn [vec da_vals] in Hord.
  assert (Hs' : stores (UM (um_dim m) (Some co) (Some conn) (Some connI) (typesOf cells)) cells) by (exists conn, connI; done).
  destruct (sorted_moved _ cells (levs cells types) k Hs' (levs_len cells types) Hperm Hord) as (m' & sel & R1 & R2 & R3 & R4 & R5 & R6 & R7 & R8).
  { intros i0 j s t x y Hi Hj Hx Hy. destruct (levs_look cells types Hall i0 s Hi) as (p & Hp & Hps). destruct (levs_look cells types Hall j t Hj) as (q & Hq & Hqt). assert (x = p) as -> by congruence. assert (y = q) as -> by congruence. split; [intros ->; eapply (NoDup_zlook types); eauto|intros ->; congruence]. }
  rewrite R1. cbn [bind]. exists m', k, sel. split; [done|]. split; [done|]. split; [done|]. split; [done|]. split; [done|]. split; [done|]. split; [done|].
  intros a b s t p q Hab Ha Hb [Hps _] [Hqt _]. destruct R6 as (P1 & P2 & P3 & P4). assert (Hr : forall v, v ∈ k <-> 0 <= v < zlen cells) by (intros v; unfold is_perm in Hperm; rewrite Hperm, elem_of_seqZ; lia). assert (Hll : zlen sel = zlen cells) by (unfold zlen; rewrite P2; done).
  pose proof (zlook_Some_lt _ _ _ Ha) as La. pose proof (zlook_Some_lt _ _ _ Hb) as Lb. rewrite zlen_kinds in La, Lb. assert (Ia : a ∈ k) by (apply Hr; lia). assert (Ib : b ∈ k) by (apply Hr; lia). apply elem_of_zlook in Ia as [i1 Hi]. apply elem_of_zlook in Ib as [j1 Hj].
  pose proof (zlook_Some_lt _ _ _ Hi). pose proof (zlook_Some_lt _ _ _ Hj). destruct (zlook_lt (levs cells types) i1) as [x Hx]; [rewrite levs_len; lia|]. destruct (zlook_lt (levs cells types) j1) as [y Hy]; [rewrite levs_len; lia|].
  destruct (R8 a b s t x y i1 j1 Hab Ha Hb Hi Hj Hx Hy) as (K1 & K2 & K3). apply (levs_inv cells types Hnd Hall i1 p s Hps) in K1. apply (levs_inv cells types Hnd Hall j1 q t Hqt) in K2. assert (x = p) as -> by congruence. assert (y = q) as -> by congruence. done.
Qed.
Lemma rearrange_hangs m cells fuel : stores m cells -> is_Some (um_coords m) -> ~ early (kinds cells) -> rearrange2ConsecutiveCellTypes fuel m = Fuel.
Proof.
  intros Hs [co Eco] He. destruct (stores_get m cells Hs) as (conn & connI & Ec & EI & Hsky & _). unfold rearrange2ConsecutiveCellTypes, checkFullyDefined. rewrite Ec, EI, Eco, (types_ok cells conn connI _ Hsky), (numCells_ok m cells Hs). cbn [bind].
  change (whileM fuel (fun '(i, types) => Ok (negb (i =? zlen cells) && negb (zlen types =? zlen (typesOf cells)))) _ (0, [])) with (whileM fuel (cond1 (zlen cells) (zlen (typesOf cells))) (step1 conn connI (zlen cells)) (0, [])).
  destruct (loop_fuel cells conn connI Hsky fuel) as [-> |[_ H]]; [done|]. done.
Qed.

(** * splitByType *)
Lemma picked_seq (cells : list cell) a n : 0 <= a -> 0 <= n -> a + n <= zlen cells -> picked cells (seqZ a n) (take (Z.to_nat n) (drop (Z.to_nat a) cells)).
Proof.
  intros Ha Hn Hl. unfold picked. apply F2_zlook; [rewrite zlen_take, zlen_drop, zlen_seqZ; lia|]. intros i x y Hx Hy. rewrite zseq in Hx. destruct ((0 <=? i) && (i <? n)) eqn:Ei; [|done]. injection Hx as <-. rewrite zlook_take in Hy by lia. rewrite zlook_drop in Hy by lia. rewrite <- Hy. f_equal. lia.
Qed.
Lemma split_ok m cells : stores m cells -> 0 <= um_dim m -> exists ms parts, splitByType m = Ok ms /\ cut_by_type cells parts /\ Forall2 (fun p part => stores p part /\ typed p part /\ um_dim p = um_dim m /\ um_coords p = um_coords m) ms parts.
Proof.
  intros Hs Hd. destruct (stores_get m cells Hs) as (conn & connI & Ec & EI & Hsky & _). unfold splitByType, checkConnectivityFullyDefined. rewrite Ec, EI, (numCells_ok m cells Hs). cbn [bind]. rewrite <- (zlen_kinds cells).
  match goal with |- context [onRuns _ ?b ?s] => assert (W : wp (onRuns (zlen (kinds cells)) b s) (fun r => exists parts, concat parts = cells /\ kinds <$> parts = (fun p => replicate (Z.to_nat (p.2)) (p.1)) <$> runs (kinds cells) /\ Forall2 (fun p part => stores p part /\ typed p part /\ um_dim p = um_dim m /\ um_coords p = um_coords m) r.2 parts) False) end.
  { apply (wp_onRuns (kinds cells) (fun pre ret => exists parts, concat parts = take (Z.to_nat (size pre)) cells /\ kinds <$> parts = (fun p => replicate (Z.to_nat (p.2)) (p.1)) <$> pre /\ Forall2 (fun p part => stores p part /\ typed p part /\ um_dim p = um_dim m /\ um_coords p = um_coords m) ret parts)).
    - exists []. split; [done|]. split; [done|constructor].
    - intros pre t n post ret E (parts & P1 & P2 & P3). rewrite (run_type _ _ _ Hsky _ _ _ _ E). cbn [bind]. rewrite zlen_kinds, (findOther_ok _ _ _ Hsky _ _ _ _ E). cbn [bind]. pose proof (run_pos _ _ _ _ _ E) as Hn. pose proof (run_size _ _ _ _ _ E) as Hsz. rewrite zlen_kinds in Hsz. replace (size pre + n - size pre) with n by lia.
      destruct (part0_ok m cells (seqZ (size pre) n) _ Hs Hd (picked_seq cells (size pre) n ltac:(lia) ltac:(lia) ltac:(lia))) as (m' & -> & Q1 & Q2 & Q3 & Q4). cbn [bind wp fst snd]. split; [done|].
      set (part := take (Z.to_nat n) (drop (Z.to_nat (size pre)) cells)) in *. exists (parts ++ [part]). split; [|split].
      + rewrite concat_app, P1. cbn [concat]. rewrite app_nil_r. unfold part. rewrite size_app, size_one by lia. rewrite take_take_drop. f_equal. lia.
      + rewrite !fmap_app, P2. f_equal. cbn. f_equal. unfold part, kinds. rewrite fmap_take, fmap_drop. fold (kinds cells). rewrite (run_split _ _ _ _ _ E) at 1. rewrite drop_app_alt by (unfold size, zlen; lia). rewrite take_app_alt by (rewrite replicate_length; done). done.
      + apply Forall2_app; [done|]. constructor; [|constructor]. done.
    - intros ret (parts & P1 & P2 & P3). exists parts. cbn [snd]. split; [|done]. rewrite P1. apply take_ge. unfold size. rewrite (proj1 (runs_ok _)), zlen_kinds. unfold zlen. lia. }
  apply wp_ok in W as ([o ret] & -> & parts & P1 & P2 & P3). cbn [bind snd] in *. exists ret, parts. split; [done|]. split; [|done]. split; [done|]. destruct (runs_ok (kinds cells)) as [_ Hpr].
  assert (Hat : forall i p, parts @ i = Some p -> exists t n, runs (kinds cells) @ i = Some (t, n) /\ kinds p = replicate (Z.to_nat n) t).
  { intros i p Hp. assert (H : (kinds <$> parts) @ i = Some (kinds p)) by (rewrite zlook_fmap, Hp; done). rewrite P2, zlook_fmap in H. destruct (runs (kinds cells) @ i) as [(t, n)|]; [|done]. exists t, n. split; [done|]. injection H as H. done. }
  assert (Hk : forall p t n c, kinds p = replicate (Z.to_nat n) t -> c ∈ p -> c.1 = t). { intros p t n c H Hc. assert (c.1 ∈ kinds p) as Hin by (unfold kinds; apply elem_of_list_fmap; eauto). rewrite H in Hin. apply elem_of_replicate in Hin. tauto. }
  split.
  - intros p Hp. apply elem_of_zlook in Hp as [i Hi]. destruct (Hat i p Hi) as (t & n & Hr & Hkp). split; [|exists t; intros c Hc; eapply Hk; eauto]. intros ->. pose proof (proper_nonneg _ _ Hpr ltac:(eapply zlook_elem; exact Hr)) as H1. cbn [snd] in H1. apply (f_equal length) in Hkp. rewrite replicate_length in Hkp. cbn in Hkp. lia.
  - intros i p q c d Hp Hq Hc Hdd. destruct (Hat i p Hp) as (t & n & Hr & Hkp). destruct (Hat _ q Hq) as (u & n' & Hr' & Hkq). rewrite (Hk p t n c Hkp Hc), (Hk q u n' d Hkq Hdd). intros Htu. subst u.
    assert (Hsp : exists a b, runs (kinds cells) = a ++ (t, n) :: (t, n') :: b). { pose proof (zlook_Some_lt _ _ _ Hr). rewrite zlook_to_nat in Hr by lia. rewrite zlook_to_nat in Hr' by lia. replace (Z.to_nat (i + 1)) with (S (Z.to_nat i)) in Hr' by lia. exists (take (Z.to_nat i) (runs (kinds cells))), (drop (S (S (Z.to_nat i))) (runs (kinds cells))). rewrite <- (take_drop (Z.to_nat i) (runs (kinds cells))) at 1. f_equal. rewrite (drop_S _ _ _ Hr). f_equal. apply drop_S. done. }
    destruct Hsp as (a & b & Hab). rewrite Hab in Hpr. apply proper_adj in Hpr. done.
Qed.

(** * getDistributionOfTypes *)
Definition triples (g : list (Z * Z)) : list Z := concat ((fun p : Z * Z => [p.1; p.2; -1]) <$> g).
Lemma triples_len g : zlen (triples g) = 3 * zlen g.
Proof. unfold triples. induction g as [|p g IH]; [done|]. rewrite fmap_cons. cbn [concat]. rewrite zlen_app, IH, !zlen_cons. change (zlen (@nil Z)) with 0. lia. Qed.
Lemma triples_snoc g t n : triples (g ++ [(t, n)]) = triples g ++ [t; n; -1].
Proof. unfold triples. rewrite fmap_app, concat_app. done. Qed.
Lemma wr_app {A} (a : list A) x b v : wr (a ++ x :: b) (zlen a) v = Ok (a ++ v :: b).
Proof.
  rewrite wr_ok by (rewrite zlen_app, zlen_cons; pose proof (zlen_nonneg a); pose proof (zlen_nonneg b); lia). f_equal. unfold zset. replace (Z.to_nat (zlen a)) with (length a) by (unfold zlen; lia). rewrite insert_app_r_alt by lia. rewrite Nat.sub_diag. done.
Qed.
Lemma distribution_runs l : contiguous l -> distribution l = triples (runs l).
Proof.
  intros Hc. unfold distribution, triples. rewrite (firsts_contig l Hc). f_equal. rewrite <- list_fmap_compose. apply list_fmap_ext. intros i (t, n) Hi. cbn. f_equal. f_equal. apply elem_of_list_lookup_2 in Hi. apply elem_of_list_split in Hi as (a & b & Hab). rewrite (number_run l t n a b Hc Hab). done.
Qed.
Lemma distribution_wp m cells : stores m cells -> typed m cells -> wp (getDistributionOfTypes m) (fun r => contiguous (kinds cells) /\ r = distribution (kinds cells)) (~ contiguous (kinds cells)).
Proof.
  intros Hs [Hta Hte]. destruct (stores_get m cells Hs) as (conn & connI & Ec & EI & Hsky & _). unfold getDistributionOfTypes, checkConnectivityFullyDefined. rewrite Ec, EI, (numCells_ok m cells Hs). cbn [bind]. rewrite <- (zlen_kinds cells). set (l := kinds cells). set (N := zlen (um_types m)).
  assert (Hin : forall t, t ∈ um_types m <-> t ∈ l). { intros t. rewrite Hte. unfold l, kinds. rewrite elem_of_list_fmap. split; intros (c & H1 & H2); exists c; done. }
  assert (Hle : forall pre t n post, runs l = pre ++ (t, n) :: post -> NoDup pre.*1 -> t ∉ pre.*1 -> zlen pre + 1 <= N).
  { intros pre t n post E Hn Ht. destruct (all_types (pre.*1 ++ [t]) (um_types m)) as [H _].
    - apply NoDup_app. split; [done|]. split; [|apply NoDup_singleton]. intros u Hu Hut. apply elem_of_list_singleton in Hut. congruence.
    - apply asc_nodup. done.
    - intros u Hu. apply Hin, heads_elem. rewrite E, fmap_app, fmap_cons. cbn [fst]. apply elem_of_app in Hu as [Hu|Hu]; apply elem_of_app; [tauto|]. apply elem_of_list_singleton in Hu as ->. right. apply elem_of_cons. tauto.
    - rewrite zlen_app, zlen_fmap in H. change (zlen [t]) with 1 in H. done. }
  wstep. apply (wp_onRuns l (fun pre '(i, ret, types) => NoDup pre.*1 /\ (forall t, t ∈ types <-> t ∈ pre.*1) /\ i = zlen pre /\ ret = triples pre ++ replicate (Z.to_nat (3 * (N - zlen pre))) (-1))).
  - split; [constructor|]. split; [done|]. split; [done|]. rewrite Z.sub_0_r. done.
  - intros pre t n post [[i ret] types] E (H1 & H2 & -> & ->). rewrite (run_type _ _ _ Hsky _ _ _ _ E). cbn [bind]. destruct (smem t types) eqn:Em; cbn [ifthrow].
    + cbn [wp]. apply smem_spec in Em. intros Hc. eapply again_not_contig; [exact E|apply H2, Em|exact Hc].
    + assert (Hn : t ∉ pre.*1). { intros H. apply H2, smem_spec in H. congruence. } pose proof (Hle _ _ _ _ E H1 Hn) as HN.
      replace (Z.to_nat (3 * (N - zlen pre))) with (S (S (S (Z.to_nat (3 * (N - (zlen pre + 1))))))) by lia. cbn [replicate]. rewrite <- (triples_len pre). rewrite wr_app. cbn [bind]. unfold l. rewrite zlen_kinds, (findOther_ok _ _ _ Hsky _ _ _ _ E). cbn [bind]. replace (size pre + n - size pre) with n by lia.
      change (triples pre ++ t :: -1 :: ?b) with (triples pre ++ [t] ++ -1 :: b). rewrite app_assoc. replace (zlen (triples pre) + 1) with (zlen (triples pre ++ [t])) by (rewrite zlen_app; done). rewrite wr_app. cbn [bind wp fst snd]. split; [done|].
      rewrite fmap_app. change ([(t, n)].*1) with [t]. split; [apply NoDup_app; split; [done|]; split; [|apply NoDup_singleton]; intros u Hu Ht; apply elem_of_list_singleton in Ht; congruence|].
      split; [intros u; rewrite elem_of_sins, H2, elem_of_app, elem_of_list_singleton; tauto|]. rewrite zlen_app. change (zlen [(t, n)]) with 1. split; [done|]. rewrite triples_snoc, <- !app_assoc. done.
  - intros [[i ret] types] (H1 & H2 & -> & ->). cbn [snd wp]. apply contig_runs in H1 as Hc. split; [done|]. rewrite distribution_runs by done.
    assert (N = zlen (runs l)) as ->; [|rewrite Z.sub_diag; cbn; rewrite app_nil_r; done]. destruct (all_types (runs l).*1 (um_types m)) as [_ [_ H]]; [done|apply asc_nodup; done|intros t Ht; apply Hin, heads_elem; done|]. rewrite zlen_fmap in H. symmetry. apply H. intros t Ht. apply heads_elem, Hin. done.
Qed.
