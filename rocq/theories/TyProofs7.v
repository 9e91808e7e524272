(** Profiles split type by type. *)
From Coq Require Import QArith ZifyBool ZifyNat.
From Verif Require Import Base DataArray ArrLib StdModel StdProofs FillLib RenumSpec RenumModel RenumProofs SearchSpec SearchModel SearchProofs SetsModel PermProofs SkyModel SkyProofs SkyProofs3 IndexSpec IndexProofs3 IndexProofs4 IndexProofs6 CellTable UmModel UmSpec UmProofs UmProofs2 UmProofs3 UmProofs8 UmProofs9 UmProofs10 UcModel UcProofs3 DsProofs4 DsProofs5 TyModel TySpec TyProofs TyProofs2 TyProofs3 TyProofs4 TyProofs5 TyProofs6.
Local Open Scope Z_scope.

Lemma zlook_rev {A} (l : list A) i : 0 <= i < zlen l -> rev l @ i = l @ (zlen l - 1 - i).
Proof.
  intros Hi. rewrite !zlook_to_nat by lia. rewrite (rev_alt l : rev l = reverse l). rewrite reverse_lookup by (unfold zlen in Hi; lia). f_equal. unfold zlen. lia.
Qed.
Definition in_slot (arr : list Z) (v p : Z) : Prop := exists a b, arr @ p = Some a /\ arr @ (p + 1) = Some b /\ a <= v < b.
Lemma slot_find arr v : nondecreasing arr -> let p := zlen arr - 1 - find_if (fun x => x <=? v) (rev arr) in
  (0 <= p < zlen arr - 1 -> in_slot arr v p) /\ (forall q, in_slot arr v q -> q = p).
Proof.
  intros Hnd. pose proof (find_if_spec (fun x => x <=? v) (rev arr)) as (F1 & F2 & F3). set (k := find_if (fun x => x <=? v) (rev arr)) in *. intros p. assert (Hlen : zlen (rev arr) = zlen arr) by (unfold zlen; rewrite rev_length; done). rewrite Hlen in *. split.
  - intros Hp. destruct (F3 ltac:(lia)) as (a & Ha & Hle). rewrite zlook_rev in Ha by lia. destruct (zlook_lt arr (p + 1)) as [b Hb]; [lia|]. exists a, b. split; [exact Ha|]. split; [done|]. assert (Hk : rev arr @ (k - 1) = Some b) by (rewrite zlook_rev by lia; rewrite <- Hb; f_equal; lia). apply F2 in Hk; [|lia]. lia.
  - intros q (a & b & Ha & Hb & Hab). pose proof (zlook_Some_lt _ _ _ Ha). pose proof (zlook_Some_lt _ _ _ Hb). assert (Hka : rev arr @ (zlen arr - 1 - q) = Some a) by (rewrite zlook_rev by lia; rewrite <- Ha; f_equal; lia).
    assert (k <= zlen arr - 1 - q). { destruct (decide (k <= zlen arr - 1 - q)) as [|Hgt]; [done|]. apply F2 in Hka; lia. }
    destruct (decide (k = zlen arr - 1 - q)) as [|Hne]; [unfold p; lia|]. exfalso. destruct (F3 ltac:(lia)) as (x & Hx & Hle). rewrite zlook_rev in Hx by lia. assert (b <= x); [|lia]. destruct (decide (q + 1 = zlen arr - 1 - k)) as [E|]; [assert (x = b) by congruence; lia|]. apply (Hnd (q + 1) (zlen arr - 1 - k)); [lia|done|done].
Qed.
Lemma byRange_wp vals arr : nondecreasing arr -> wp (splitByValueRange (vec vals) arr)
  (fun '(c, r, casts) => 2 <= zlen arr /\ zlen c = zlen vals /\ zlen r = zlen vals /\ (forall i v, vals @ i = Some v -> exists p a, c @ i = Some p /\ in_slot arr v p /\ arr @ p = Some a /\ r @ i = Some (v - a)) /\ increasing casts /\ forall p, p ∈ casts <-> p ∈ c)
  (zlen arr < 2 \/ exists v, v ∈ vals /\ forall p, ~ in_slot arr v p).
Proof.
  intros Hnd. unfold splitByValueRange, checkAllocated, checkOneComp. cbn [vec da_alloc da_nc negb Z.eqb Pos.eqb ifthrow]. fold (vec vals). rewrite da_nt_vec. destruct (Z.ltb_spec (zlen arr) 2) as [Hlt|Hge]; cbn [ifthrow]; [cbn [wp]; tauto|]. cbn [vec da_vals]. pose proof (zlen_nonneg vals) as Hnn.
  wstep. apply (wp_forZ (fun i '(c, r, casts) => zlen c = i /\ zlen r = i /\ (forall j v, j < i -> vals @ j = Some v -> exists p a, c @ j = Some p /\ in_slot arr v p /\ arr @ p = Some a /\ r @ j = Some (v - a)) /\ SS casts /\ forall p, p ∈ casts <-> p ∈ c)); [lia| | |].
  - split; [done|]. split; [done|]. split; [intros j v Hj Hv; apply zlook_Some_lt in Hv; lia|]. split; [constructor|done].
  - intros i [[c r] casts] Hi (H1 & H2 & H3 & H4 & H5). destruct (zlook_lt vals i) as [v Hv]; [lia|]. unfold rd at 1. rewrite Hv. cbn [bind]. destruct (slot_find arr v Hnd) as [S1 S2]. set (p := zlen arr - 1 - find_if (fun x => x <=? v) (rev arr)) in *. destruct ((0 <=? p) && (p <? zlen arr - 1)) eqn:Ep.
    + specialize (S1 ltac:(lia)). destruct S1 as (a & b & Ha & Hb & Hab). unfold rd. rewrite Ha. cbn [bind wp]. rewrite !zlen_app. change (zlen [p]) with 1. change (zlen [v - a]) with 1. split; [lia|]. split; [lia|]. split; [|split].
      * intros j w Hj Hw. destruct (decide (j = i)) as [->|Hne].
        -- assert (w = v) as -> by congruence. exists p, a. rewrite zlook_app_r by lia. rewrite H1, Z.sub_diag. split; [done|]. split; [exists a, b; done|]. split; [done|]. rewrite zlook_app_r by lia. rewrite H2, Z.sub_diag. done.
        -- destruct (H3 j w ltac:(lia) Hw) as (p' & a' & K1 & K2 & K3 & K4). exists p', a'. pose proof (zlook_Some_lt _ _ _ K1). pose proof (zlook_Some_lt _ _ _ K4). rewrite !zlook_app_l by lia. done.
      * apply SS_sins. done.
      * intros q. rewrite elem_of_sins, H5, elem_of_app, elem_of_list_singleton. tauto.
    + cbn [wp]. right. exists v. split; [eapply zlook_elem; exact Hv|]. intros q Hq. specialize (S2 q Hq). subst q. destruct Hq as (a & b & Ha & Hb & _). apply zlook_Some_lt in Ha. apply zlook_Some_lt in Hb. lia.
  - intros [[c r] casts] (H1 & H2 & H3 & H4 & H5). cbn [wp]. split; [done|]. split; [done|]. split; [done|]. split; [|split; [apply increasing_SS; done|done]]. intros i v Hv. apply H3; [|done]. apply zlook_Some_lt in Hv. lia.
Qed.

Lemma omap_look {A B} (f : A -> option B) l : (forall x, x ∈ l -> is_Some (f x)) -> forall i, omap f l @ i = l @ i ≫= f.
Proof.
  induction l as [|x l IH]; intros H i; [change (omap f []) with (@nil B); rewrite !zlook_nil; done|]. cbn [omap list_omap]. destruct (H x ltac:(apply elem_of_cons; tauto)) as [y Hy]. rewrite Hy. rewrite !zlook_cons. destruct (Z.eqb_spec i 0); [cbn; done|]. apply IH. intros z Hz. apply H, elem_of_cons. tauto.
Qed.
Lemma omap_len {A B} (f : A -> option B) l : (forall x, x ∈ l -> is_Some (f x)) -> zlen (omap f l) = zlen l.
Proof.
  induction l as [|x l IH]; intros H; [done|]. cbn [omap list_omap]. destruct (H x ltac:(apply elem_of_cons; tauto)) as [y Hy]. rewrite Hy, !zlen_cons, IH; [done|]. intros z Hz. apply H, elem_of_cons. tauto.
Qed.
Lemma SS_seqZ_filter (p : Z -> bool) n : 0 <= n -> SS (List.filter p (seqZ 0 n)).
Proof.
  intros Hn. rewrite <- (Z2Nat.id n Hn). generalize (Z.to_nat n) as k. induction k as [|k IH]; [constructor|]. replace (Z.of_nat (S k)) with (Z.of_nat k + 1) by lia. rewrite seqZ_app_r by lia. rewrite List.filter_app. cbn [List.filter]. destruct (p (0 + Z.of_nat k)); [|rewrite app_nil_r; done]. apply SS_snoc; [done|]. intros y Hy. apply elem_of_list_In, List.filter_In in Hy as [Hy _]. apply elem_of_list_In, elem_of_seqZ in Hy. lia.
Qed.
Lemma filter_ranks {A} (p : A -> bool) (ts : list A) : Forall2 (fun q t => ts @ q = Some t) (List.filter (fun q => match ts @ q with Some t => p t | None => false end) (seqZ 0 (zlen ts))) (List.filter p ts).
Proof.
  induction ts as [|t ts IH] using rev_ind; [constructor|]. rewrite zlen_app. change (zlen [t]) with 1. rewrite seqZ_app_r by apply zlen_nonneg. rewrite !List.filter_app. cbn [List.filter]. rewrite Z.add_0_l, zlook_app_r, Z.sub_diag by lia. change ([t] @ 0) with (Some t). cbv beta iota. apply Forall2_app.
  - assert (E : List.filter (fun q => match (ts ++ [t]) @ q with Some t => p t | None => false end) (seqZ 0 (zlen ts)) = List.filter (fun q => match ts @ q with Some t => p t | None => false end) (seqZ 0 (zlen ts))).
    { apply List.filter_ext_in. intros q Hq. apply elem_of_list_In, elem_of_seqZ in Hq. rewrite zlook_app_l by lia. done. }
    rewrite E. eapply Forall2_impl; [exact IH|]. intros q u Hq. pose proof (zlook_Some_lt _ _ _ Hq). rewrite zlook_app_l by lia. done.
  - destruct (p t); [|constructor]. constructor; [|constructor]. rewrite zlook_app_r by lia. rewrite Z.sub_diag. done.
Qed.
Lemma entries_elem l pfl t j : j ∈ entries l pfl t <-> exists v, pfl @ j = Some v /\ l @ v = Some t.
Proof.
  unfold entries. rewrite elem_of_list_In, List.filter_In, <- elem_of_list_In, elem_of_seqZ. split.
  - intros [H1 H2]. destruct (pfl @ j) as [v|]; [|done]. apply bool_decide_eq_true in H2. eauto.
  - intros (v & H1 & H2). pose proof (zlook_Some_lt _ _ _ H1). rewrite H1, bool_decide_eq_true. split; [lia|done].
Qed.
Lemma locals_look l pfl t i : locals l pfl t @ i = entries l pfl t @ i ≫= fun j => rank_among l t <$> pfl @ j.
Proof. unfold locals. apply omap_look. intros j Hj. apply entries_elem in Hj as (v & -> & _). eexists. reflexivity. Qed.
Lemma locals_len l pfl t : zlen (locals l pfl t) = zlen (entries l pfl t).
Proof. unfold locals. apply omap_len. intros j Hj. apply entries_elem in Hj as (v & -> & _). eexists. reflexivity. Qed.

(** The bounds of the runs. *)
Section Runs.
Variable g : list (Z * Z).
Hypothesis Hpos : forall p, p ∈ g -> 1 <= p.2.
Variable tr : list Z.
Hypothesis Htl : zlen tr = zlen g + 1.
Hypothesis Htr : forall i, 0 <= i <= zlen g -> tr @ i = Some (size (take (Z.to_nat i) g)).
Lemma g_split i t n : g @ i = Some (t, n) -> g = take (Z.to_nat i) g ++ (t, n) :: drop (Z.to_nat (i + 1)) g /\ take (Z.to_nat (i + 1)) g = take (Z.to_nat i) g ++ [(t, n)] /\ zlen (take (Z.to_nat i) g) = i.
Proof using g. clear Hpos Htr Htl tr.
  intros Hi. pose proof (zlook_Some_lt _ _ _ Hi). split; [|split; [apply take_snoc_z; done|rewrite zlen_take; lia]]. rewrite <- (take_drop (Z.to_nat (i + 1)) g) at 1. rewrite (take_snoc_z _ _ _ Hi), <- app_assoc. done.
Qed.
Lemma bound_next i t n : g @ i = Some (t, n) -> tr @ i = Some (size (take (Z.to_nat i) g)) /\ tr @ (i + 1) = Some (size (take (Z.to_nat i) g) + n).
Proof using Hpos Htr.
  intros Hi. pose proof (zlook_Some_lt _ _ _ Hi). destruct (g_split i t n Hi) as (_ & E & _). rewrite !Htr by lia. split; [done|]. rewrite E, size_app, size_one; [done|]. specialize (Hpos (t, n) ltac:(eapply zlook_elem; exact Hi)). cbn [snd] in Hpos. lia.
Qed.
Lemma size_take_le i j : 0 <= i <= j -> j <= zlen g -> size (take (Z.to_nat i) g) <= size (take (Z.to_nat j) g).
Proof using g. clear Hpos Htr Htl tr.
  intros Hij Hj. replace (Z.to_nat j) with (Z.to_nat i + (Z.to_nat (j - i)))%nat by lia. rewrite <- (take_take_drop g). rewrite size_app. assert (0 <= size (take (Z.to_nat (j - i)) (drop (Z.to_nat i) g))); [unfold size; apply zlen_nonneg|lia].
Qed.
Lemma tr_nondec : nondecreasing tr.
Proof using Htl Htr.
  intros i j x y Hij Hx Hy. pose proof (zlook_Some_lt _ _ _ Hx). pose proof (zlook_Some_lt _ _ _ Hy). rewrite Htr in Hx, Hy by lia. injection Hx as <-. injection Hy as <-. apply size_take_le; lia.
Qed.
Lemma slot_run v p : in_slot tr v p <-> exists t n, g @ p = Some (t, n) /\ size (take (Z.to_nat p) g) <= v < size (take (Z.to_nat p) g) + n.
Proof using Hpos Htl Htr.
  split.
  - intros (a & b & Ha & Hb & Hab). pose proof (zlook_Some_lt _ _ _ Ha). pose proof (zlook_Some_lt _ _ _ Hb). destruct (zlook_lt g p) as [(t, n) Hg]; [lia|]. exists t, n. split; [done|]. destruct (bound_next p t n Hg) as [E1 E2]. rewrite E1 in Ha. rewrite E2 in Hb. injection Ha as <-. injection Hb as <-. done.
  - intros (t & n & Hg & Hv). destruct (bound_next p t n Hg) as [E1 E2]. eexists _, _. split; [exact E1|]. split; [exact E2|]. done.
Qed.
End Runs.
Lemma some_run l v : 0 <= v < zlen l -> exists p t n, runs l @ p = Some (t, n) /\ size (take (Z.to_nat p) (runs l)) <= v < size (take (Z.to_nat p) (runs l)) + n /\ l @ v = Some t.
Proof.
  intros Hv. destruct (runs_ok l) as [He Hp]. assert (H : forall k : nat, (k <= length (runs l))%nat -> v < size (take k (runs l)) -> exists p t n, runs l @ p = Some (t, n) /\ size (take (Z.to_nat p) (runs l)) <= v < size (take (Z.to_nat p) (runs l)) + n).
  { induction k as [|k IH]; intros Hk Hlt; [change (size (take 0 (runs l))) with 0 in Hlt; lia|]. destruct (decide (v < size (take k (runs l)))) as [|Hge]; [apply IH; [lia|done]|]. destruct (zlook_lt (runs l) (Z.of_nat k)) as [(t, n) Hg]; [unfold zlen; lia|]. exists (Z.of_nat k), t, n. split; [done|]. rewrite Nat2Z.id. split; [lia|].
    pose proof (take_snoc_z _ _ _ Hg) as E. replace (Z.to_nat (Z.of_nat k + 1)) with (S k) in E by lia. rewrite Nat2Z.id in E. rewrite E, size_app, size_one in Hlt; [lia|]. pose proof (proper_nonneg _ _ Hp (zlook_elem _ _ _ Hg)) as Hn. cbn [snd] in Hn. lia. }
  destruct (H (length (runs l)) ltac:(lia)) as (p & t & n & Hg & Hr).
  - rewrite take_ge by lia. unfold size. rewrite He. lia.
  - exists p, t, n. split; [done|]. split; [done|]. destruct (g_split _ _ _ _ Hg) as (E & _ & _). apply (run_in _ _ _ _ _ E). done.
Qed.
Lemma pieces_ok l pfl smart (f : _ -> Z -> res (list Z * list (list Z) * list (list Z))) :
  forall casts ts, Forall2 (fun q t => forall code a b, f (code, a, b) q = if negb smart || negb (bool_decide (locals l pfl t = seqZ 0 (number l t)))
     then Ok (code ++ [t; zlen (entries l pfl t); zlen b], a ++ [entries l pfl t], b ++ [locals l pfl t])
     else Ok (code ++ [t; zlen (entries l pfl t); -1], a ++ [entries l pfl t], b)) casts ts ->
  forall code a b, foldM f casts (code, a, b) = Ok (code ++ (pieces l pfl smart (zlen b) ts).1, a ++ (entries l pfl <$> ts), b ++ (pieces l pfl smart (zlen b) ts).2).
Proof.
  intros casts ts H. induction H as [|q t casts ts Hq _ IH]; intros code a b; [cbn; rewrite !app_nil_r; done|]. cbn [foldM]. rewrite Hq. cbn [pieces]. rewrite fmap_cons. destruct smart; cbn [negb orb andb].
  - destruct (bool_decide (locals l pfl t = seqZ 0 (number l t))); cbn [negb bind]; rewrite IH; cbn [fst snd].
    + rewrite <- !app_assoc. done.
    + rewrite zlen_app. change (zlen [locals l pfl t]) with 1. rewrite <- !app_assoc. done.
  - cbn [bind]. rewrite IH. cbn [fst snd]. rewrite zlen_app. change (zlen [locals l pfl t]) with 1. rewrite <- !app_assoc. done.
Qed.
Lemma profile_wp m cells pfl smart : stores m cells ->
  wp (splitProfilePerType m (vec pfl) smart)
    (fun r => cells <> [] /\ contiguous (kinds cells) /\ (forall v, v ∈ pfl -> 0 <= v < zlen cells) /\
      let ts := present (kinds cells) pfl in let q := pieces (kinds cells) pfl smart 0 ts in r = (q.1, entries (kinds cells) pfl <$> ts, q.2))
    (~ (cells <> [] /\ contiguous (kinds cells) /\ forall v, v ∈ pfl -> 0 <= v < zlen cells)).
Proof.
  intros Hs. destruct (stores_get m cells Hs) as (conn & connI & Ec & EI & Hsky & _). unfold splitProfilePerType, checkConnectivityFullyDefined. cbn [vec da_nc Z.eqb Pos.eqb negb ifthrow]. fold (vec pfl). rewrite Ec, EI, (numCells_ok m cells Hs). cbn [bind]. rewrite <- (zlen_kinds cells). set (l := kinds cells). assert (Hll : zlen l = zlen cells) by apply zlen_kinds.
  wstep. apply (wp_onRuns l (fun pre '(types, tr) => NoDup pre.*1 /\ types = pre.*1 /\ zlen tr = zlen pre + 1 /\ forall i, 0 <= i <= zlen pre -> tr @ i = Some (size (take (Z.to_nat i) pre)))).
  - split; [constructor|]. split; [done|]. split; [done|]. intros i Hi. change (zlen (@nil (Z * Z))) with 0 in Hi. assert (i = 0) as -> by lia. done.
  - intros pre t n post [types tr] E (H1 & -> & H3 & H4). rewrite (run_type _ _ _ Hsky _ _ _ _ E). cbn [bind]. destruct (findpos pre.*1 t) as (P1 & P2 & P3). destruct (Z.eqb_spec (find_if (fun x => x =? t) pre.*1) (zlen pre.*1)) as [Ef|Ef]; cbn [negb ifthrow].
    + rewrite Hll, (findOther_ok _ _ _ Hsky _ _ _ _ E). cbn [bind wp fst snd]. split; [done|]. apply P1 in Ef. rewrite fmap_app. change ([(t, n)].*1) with [t]. split; [apply NoDup_app; split; [done|]; split; [|apply NoDup_singleton]; intros u Hu Ht; apply elem_of_list_singleton in Ht; congruence|]. split; [done|]. rewrite !zlen_app. change (zlen [(t, n)]) with 1. change (zlen [size pre + n]) with 1. split; [lia|]. intros i Hi. pose proof (run_pos _ _ _ _ _ E). destruct (decide (i <= zlen pre)).
      * rewrite zlook_app_l by lia. rewrite H4 by lia. f_equal. f_equal. rewrite take_app_le; [done|]. unfold zlen in *. lia.
      * assert (i = zlen pre + 1) as -> by lia. rewrite zlook_app_r by lia. rewrite H3, Z.sub_diag. change ([size pre + n] @ 0) with (Some (size pre + n)). f_equal. rewrite take_ge by (rewrite app_length; unfold zlen; cbn; lia). rewrite size_app, size_one by lia. done.
    + cbn [wp]. intros (_ & Hc & _). assert (Hin : t ∈ pre.*1) by (destruct (decide (t ∈ pre.*1)) as [|Hn]; [done|]; exfalso; apply Ef, P1; done). eapply again_not_contig; eauto.
  - intros [types tr] (Hnd & -> & Htl & Htr). cbn [bind]. apply contig_runs in Hnd as Hc. set (g := runs l) in *. assert (Hpos : forall p, p ∈ g -> 1 <= p.2) by (intros p; apply proper_nonneg, runs_ok).
    pose proof (byRange_wp pfl tr (tr_nondec g tr Htl Htr)) as W. pose proof (slot_run g Hpos tr Htl Htr) as Hslot. destruct (splitByValueRange (vec pfl) tr) as [[[c r] casts]| | |]; cbn [wp] in W; try done; cbn [bind wp].
    2:{ intros (Hne & _ & Hin). destruct W as [W|(v & Hv & Hno)].
        - apply Hne. apply SkyProofs3.zlen_0. rewrite <- Hll. pose proof (zlen_nonneg g). assert (g = []) as Hg by (apply SkyProofs3.zlen_0; lia). destruct (runs_ok l) as [He _]. fold g in He. rewrite Hg in He. rewrite <- He. done.
        - specialize (Hin v Hv). destruct (some_run l v ltac:(lia)) as (p & t & n & Hg & Hr & _). apply (Hno p), Hslot. exists t, n. done. }
    destruct W as (W1 & W2 & W3 & W4 & W5 & W6).
    assert (Hne : cells <> []). { intros ->. assert (l = []) as Hl0 by done. unfold g in *. rewrite Hl0 in *. change (zlen (runs [])) with 0 in Htl. lia. }
    assert (Hran : forall v, v ∈ pfl -> 0 <= v < zlen cells). { intros v Hv. apply elem_of_zlook in Hv as [i Hi]. destruct (W4 i v Hi) as (p & a & _ & Hsl & _ & _). apply Hslot in Hsl as (t & n & Hg & Hr). destruct (g_split _ _ _ _ Hg) as (E & _ & _). pose proof (run_size _ _ _ _ _ E). lia. }
    assert (Hcq : forall i v p t n, pfl @ i = Some v -> g @ p = Some (t, n) -> c @ i = Some p <-> l @ v = Some t).
    { intros i v p t n Hi Hg. destruct (g_split _ _ _ _ Hg) as (E & _ & El). destruct (W4 i v Hi) as (p' & a & Hc' & Hsl & _ & _). apply Hslot in Hsl as (t' & n' & Hg' & Hr'). destruct (g_split _ _ _ _ Hg') as (E' & _ & El'). assert (Hlt : l @ v = Some t') by (apply (run_in _ _ _ _ _ E'); done). split.
      - intros H. assert (p' = p) as -> by congruence. congruence.
      - intros H. assert (t' = t) as -> by congruence. rewrite Hc'. f_equal. apply (proj1 (NoDup_zlook g.*1) Hnd p' p t); rewrite zlook_fmap; [rewrite Hg'|rewrite Hg]; done. }
    set (ts := present l pfl).
    assert (Hcasts : casts = List.filter (fun q => match g.*1 @ q with Some t => negb (zlen (entries l pfl t) =? 0) | None => false end) (seqZ 0 (zlen g.*1))).
    { apply SS_ext; [apply increasing_SS; done|apply SS_seqZ_filter, zlen_nonneg|]. intros p. rewrite W6, (elem_of_list_In (List.filter _ _)), List.filter_In, <- elem_of_list_In, elem_of_seqZ, zlen_fmap. split.
      - intros Hp. apply elem_of_zlook in Hp as [i Hi]. pose proof (zlook_Some_lt _ _ _ Hi). destruct (zlook_lt pfl i) as [v Hv]; [lia|]. destruct (W4 i v Hv) as (p' & a & Hc' & Hsl & _ & _). assert (p' = p) as -> by congruence. apply Hslot in Hsl as (t & n & Hg & Hr). pose proof (zlook_Some_lt _ _ _ Hg). split; [lia|]. rewrite zlook_fmap, Hg. cbn [fmap option_fmap option_map fst]. assert (Hin : i ∈ entries l pfl t) by (apply entries_elem; exists v; split; [done|]; apply (Hcq i v p t n Hv Hg); done). destruct (Z.eqb_spec (zlen (entries l pfl t)) 0) as [Hz0|]; [|done]. apply SkyProofs3.zlen_0 in Hz0. rewrite Hz0 in Hin. apply elem_of_nil in Hin. done.
      - intros [Hp Ht]. destruct (zlook_lt g p) as [(t, n) Hg]; [lia|]. rewrite zlook_fmap, Hg in Ht. cbn [fmap option_fmap option_map fst] in Ht. destruct (entries l pfl t) as [|i e] eqn:Ee; [done|]. assert (Hin : i ∈ entries l pfl t) by (rewrite Ee; apply elem_of_cons; tauto). apply entries_elem in Hin as (v & Hv & Hlv). eapply zlook_elem. apply (Hcq i v p t n Hv Hg). done. }
    assert (Hts : Forall2 (fun q t => g.*1 @ q = Some t) casts ts) by (rewrite Hcasts; unfold ts, present; rewrite (firsts_contig l Hc); apply (filter_ranks (fun t => negb (zlen (entries l pfl t) =? 0)) g.*1)).
    erewrite (pieces_ok l pfl smart _ casts ts); [cbn [wp]; split; [exact Hne|]; split; [exact Hc|]; split; [intros v Hv; fold l; rewrite Hll; exact (Hran v Hv)|]; reflexivity|].
    eapply Forall2_impl; [exact Hts|]. intros p t Hpt code a b. change (g.*1 @ p = Some t) in Hpt. rewrite zlook_fmap in Hpt. destruct (g @ p) as [(t', n)|] eqn:Hg; [|done]. cbn in Hpt. injection Hpt as ->. destruct (g_split _ _ _ _ Hg) as (E & _ & El).
    destruct (findIdsEqual_ok (vec c) eq_refl eq_refl p) as (r3 & -> & Hinc & Hr3). cbn [vec da_vals] in Hr3. cbn [bind].
    assert (r3 = entries l pfl t) as ->. { apply SS_ext; [apply increasing_SS; done|apply SS_seqZ_filter, zlen_nonneg|]. intros j. rewrite Hr3, entries_elem. split. - intros (q & Hq & ->). pose proof (zlook_Some_lt _ _ _ Hq). destruct (zlook_lt pfl j) as [v Hv]; [lia|]. exists v. split; [done|]. apply (Hcq j v p t n Hv Hg). done. - intros (v & Hv & Hlv). exists p. split; [|done]. apply (Hcq j v p t n Hv Hg). done. }
    unfold rd at 1. rewrite zlook_fmap, Hg. cbn [fmap option_fmap option_map fst bind].
    destruct (select_ok (vec r) (entries l pfl t)) as (x & -> & Hx & Hxx); [done|apply PermProofs.da_wf_vec|intros j Hj; apply entries_elem in Hj as (v & Hv & _); apply zlook_Some_lt in Hv; rewrite da_nt_vec; lia|]. cbn [bind da_vals]. rewrite initialised_ok. cbn [bind].
    assert (x = locals l pfl t) as ->. { cbn [vec da_nc] in Hx. rewrite Z.mul_1_r in Hx. apply zlook_ext_lt; [rewrite locals_len; done|]. intros i Hi. rewrite locals_look. destruct (zlook_lt (entries l pfl t) i) as [j Hj]; [lia|]. rewrite Hj. cbn [mbind option_bind]. specialize (Hxx i j Hj 0). pose proof (zlook_elem _ _ _ Hj) as Hje. apply entries_elem in Hje as (v & Hv & Hlv). pose proof (zlook_Some_lt _ _ _ Hv). unfold ij in Hxx. cbn [vec da_nc da_vals] in Hxx. rewrite (proj2 (Z.leb_le 0 i)), (proj2 (Z.leb_le 0 j)) in Hxx by lia. cbn [andb Z.leb Z.ltb Z.compare] in Hxx. rewrite !Z.mul_1_r, !Z.add_0_r in Hxx. rewrite Hxx, Hv. cbn [fmap option_fmap option_map]. rewrite (run_rank _ _ _ _ _ _ Hc E Hlv).
      destruct (W4 j v Hv) as (p' & a' & Hp' & _ & Ha' & ->). f_equal. assert (p' = p) as -> by (apply (Hcq j v p t n Hv Hg) in Hlv; congruence). destruct (bound_next g Hpos tr Htr p t n Hg) as [E1 _]. assert (a' = size (take (Z.to_nat p) g)) by congruence. lia. }
    destruct (bound_next g Hpos tr Htr p t n Hg) as [E1 E2]. unfold rd. rewrite E2. cbn [bind]. rewrite E1. cbn [bind]. replace (size (take (Z.to_nat p) g) + n - size (take (Z.to_nat p) g)) with n by lia.
    destruct (isIota_ok (vec (locals l pfl t)) eq_refl eq_refl n) as (bb & -> & Hbb). cbn [vec da_vals] in Hbb. cbn [bind]. rewrite (number_run _ _ _ _ _ Hc E).
    assert (bb = bool_decide (locals l pfl t = seqZ 0 n)) as ->; [|done]. apply eq_true_iff_eq. rewrite Hbb, bool_decide_eq_true. pose proof (run_pos _ _ _ _ _ E). split; [tauto|]. intros Hq. split; [lia|done].
Qed.
