(** A field on cells sent to the processes that ask for the cells; the complement of distributed ids. *)
From stdpp Require Import sorting.
From Coq Require Import ZifyBool ZifyNat.
From Verif Require Import Base DataArray ArrLib LayoutProofs3 PartDefProofs StdModel StdProofs SlicesModel RenumModel RenumSpec RenumProofs IndexModel IndexSpec IndexProofs6 FillLib LayoutModel SearchModel SearchSpec SearchProofs2 SetsModel SetsProofs PermProofs SkyModel SkySpec SkyProofs BlkModel DecModel DecProofs DecProofs2 ParModel ParProofs ParProofs2.

Lemma exchange {B A} (parts : list (list B)) (f : B -> list A) N : zlen parts = N -> 0 < N -> (forall p l, parts @ p = Some l -> zlen l = N) ->
  exists out, allToAllArrays ((fun l : list B => f <$> l) <$> parts) = Ok out /\ zlen out = N /\ forall r, 0 <= r < N -> exists C, out @ r = Some C /\ zlen C = N /\ forall p l x, parts @ p = Some l -> l @ r = Some x -> C @ p = Some (f x).
Proof.
  intros HN H0 Hsq. rewrite toAll_ok.
  - rewrite zlen_fmap, HN. eexists. split; [done|]. split; [rewrite zlen_fmap; unfold zlen; rewrite seqZ_length; lia|]. intros r Hr. eexists. rewrite zlook_fmap, zlook_to_nat, lookup_seqZ_lt by lia. cbn [fmap option_fmap option_map]. split; [done|].
    unfold column. rewrite !zlen_fmap. split; [done|]. intros p l x Hp Hx. rewrite zlook_fmap, zlook_fmap, Hp. cbn [fmap option_fmap option_map]. rewrite zlook_fmap. replace (0 + Z.of_nat (Z.to_nat r)) with r by lia. rewrite Hx. done.
  - rewrite zlen_fmap. lia.
  - intros p l. rewrite zlook_fmap. destruct (parts @ p) as [k|] eqn:E; [|done]. cbn. intros [= <-]. rewrite !zlen_fmap. rewrite HN. by eapply Hsq.
Qed.
Lemma gather_ok {A} (arrays : list (list A)) r a : arrays @ r = Some a -> allGatherArrays arrays r = Ok a.
Proof.
  intros Ha. pose proof (zlook_Some_lt _ _ _ Ha) as Hr. unfold allGatherArrays. destruct (starts_ok (zlen arrays + 1) (zlen <$> arrays)) as (d & -> & D1 & D2); [lia|rewrite zlen_fmap; lia|]. cbn [bind].
  rewrite (rd_ok _ _ _ (D2 r ltac:(lia))), (rd_ok _ _ _ (D2 (r + 1) ltac:(lia))). cbn [bind]. destruct (concat_bound arrays r a Ha) as [B1 B2]. pose proof (zlen_nonneg a).
  assert (zsum (take (Z.to_nat (r + 1)) (zlen <$> arrays)) = zsum (take (Z.to_nat r) (zlen <$> arrays)) + zlen a) as ->.
  { replace (Z.to_nat (r + 1)) with (S (Z.to_nat r)) by lia. rewrite (take_S_r _ _ (zlen a)), zsum_snoc; [lia|]. rewrite <- zlook_to_nat by lia. rewrite zlook_fmap, Ha. done. }
  unfold saveBlock. match goal with |- context [ubif ?b _] => replace b with false by lia end. cbn [ubif]. fold (sub (concat arrays) (zsum (take (Z.to_nat r) (zlen <$> arrays))) (zsum (take (Z.to_nat r) (zlen <$> arrays)) + zlen a)). f_equal.
  apply zlook_ext_lt; [rewrite zlen_sub by lia; lia|]. intros k Hk. rewrite zlen_sub in Hk by lia. rewrite FillLib.zlook_sub by lia. apply concat_at; [done|lia].
Qed.
Lemma Forall2_concat {A B} (R : A -> B -> Prop) l k : Forall2 (Forall2 R) l k -> Forall2 R (concat l) (concat k).
Proof. induction 1 as [|x y l k Hx _ IH]; [constructor|]. cbn. by apply Forall2_app. Qed.
Lemma concat_elem {A} (l : list (list A)) x : x ∈ concat l <-> exists p y, l @ p = Some y /\ x ∈ y.
Proof.
  rewrite elem_of_list_In, in_concat. split.
  - intros (y & Hy & Hx). apply elem_of_list_In, elem_of_zlook in Hy as (p & Hp). exists p, y. split; [done|]. by apply elem_of_list_In.
  - intros (p & y & Hp & Hx). exists y. split; apply elem_of_list_In; [by eapply zlook_elem|done].
Qed.

(** What a process sends to another one. *)
Definition cellSent {A} (world : list (list Z * list A)) (asked : list (list Z)) (p r : Z) (x : list Z * list A) : Prop :=
  exists ids f a, world @ p = Some (ids, f) /\ asked @ r = Some a /\ enumerates (fun v => v ∈ ids /\ v ∈ a) x.1 /\ Forall2 (fun v y => exists i, ids @ i = Some v /\ f @ i = Some y) x.1 x.2.
Definition cellPart {A} (asked : list (list Z)) N (ids : list Z) (f : list A) : res (list (list Z * list A)) :=
  collect N (fun r =>
      let* a := allGatherArrays asked r in
      let* cap := buildIntersection (vec ids) (Some (vec a)) in
      let* loc := findIdForEach cap (vec ids) in let* loc := initialised loc in
      let* v := select f loc in
      Ok (cap, v)).
Lemma cellPart_ok {A} (world : list (list Z * list A)) asked p ids f : zlen asked = zlen world -> world @ p = Some (ids, f) -> zlen ids = zlen f ->
  exists l, cellPart asked (zlen world) ids f = Ok l /\ zlen l = zlen world /\ forall r x, l @ r = Some x -> cellSent world asked p r x.
Proof.
  set (N := zlen world). intros Hasked Hw Hl. unfold cellPart. pose proof (zlook_Some_lt _ _ _ Hw) as Hp. fold N in Hp.
  match goal with |- exists r, collect N ?g = _ /\ _ => destruct (collect_ok N g (fun r x => cellSent world asked p r x)) as (l & El & Ll & Hl') end; [lia| |exists l; done].
  intros r Hr. destruct (zlook_lt asked r) as [a Ha]; [lia|]. rewrite (gather_ok _ _ _ Ha). cbn [bind]. unfold buildIntersection.
  destruct (intersection_ok [Some (vec ids); Some (vec a)]) as (cap & Ec & Hcap).
  { intros d Hd. apply elem_of_cons in Hd as [[= ->]|Hd]; [|apply elem_of_list_singleton in Hd as [= ->]]; unfold bad_shape; cbn; intuition congruence. }
  { done. }
  rewrite Ec. cbn [bind]. assert (Hc : enumerates (fun v => v ∈ ids /\ v ∈ a) cap).
  { split; [apply Hcap|]. intros v. rewrite (proj2 Hcap). cbn [da_vals vec]. split.
    - intros [_ H]. split; [apply (H (vec ids))|apply (H (vec a))]; set_solver.
    - intros [H1 H2]. split; [exists (vec ids); set_solver|]. intros d Hd. apply elem_of_cons in Hd as [[= ->]|Hd]; [done|apply elem_of_list_singleton in Hd as [= ->]; done]. }
  destruct (findIdForEach_ok (vec ids) cap eq_refl eq_refl) as (loc & Eloc & Lloc & Hloc); [intros v Hv; apply Hc in Hv; apply Hv|]. rewrite Eloc. cbn [bind]. rewrite initialised_ok. cbn [bind]. cbn [da_vals vec] in *.
  assert (HL : Forall2 (fun v i => ids @ i = Some v) cap loc).
  { apply Forall2_zlook_2; [unfold zlen in *; lia|]. intros k v i Hv Hi. destruct (Hloc k v Hv) as (q & Hq & Hlast). rewrite Hi in Hq. injection Hq as <-. apply Hlast. }
  destruct (sel_ok f loc) as (vals & Ev & Hvals). { intros i Hi. apply elem_of_zlook in Hi as [k Hk]. destruct (zlook_lt cap k) as [v Hv]; [apply zlook_Some_lt in Hk; lia|]. pose proof (Forall2_zlook _ _ _ _ _ _ HL Hv Hk) as Hi. cbn in Hi. apply zlook_Some_lt in Hi. lia. }
  rewrite Ev. cbn [bind]. eexists. split; [done|]. exists ids, f, a. split; [done|]. split; [done|]. split; [done|]. cbn [fst snd]. clear - HL Hvals. revert vals Hvals. induction HL as [|v i cap loc Hi HL IH]; intros vals Hvals; inversion Hvals; subst; constructor; eauto.
Qed.
Definition onCell {A} (world : list (list Z * list A)) (v : Z) (y : A) : Prop := exists p ids f i, world @ p = Some (ids, f) /\ ids @ i = Some v /\ f @ i = Some y.
Lemma cellField_ok {A} (world : list (list Z * list A)) asked : 0 < zlen world -> zlen asked = zlen world -> (forall p ids f, world @ p = Some (ids, f) -> zlen ids = zlen f) ->
  exists out, redistributeCellField world asked = Ok out /\ zlen out = zlen world /\ forall r o a, out @ r = Some o -> asked @ r = Some a ->
    exists u, enumerates (fun x => x ∈ a /\ exists p ids f, world @ p = Some (ids, f) /\ x ∈ ids) u /\ Forall2 (onCell world) u o.
Proof.
  intros HN Hasked Hlen. unfold redistributeCellField. cbv zeta. set (N := zlen world) in *.
  match goal with |- context [bind (collect N ?g) _] => destruct (collect_ok N g (fun p l => zlen l = N /\ forall r x, l @ r = Some x -> cellSent world asked p r x)) as (parts & Ep & Lp & Hparts) end; [lia| |].
  { intros p Hp. destruct (zlook_lt world p Hp) as [[ids f] Hw]. rewrite (rd_ok _ _ _ Hw). cbn [bind]. pose proof (Hlen p ids f Hw) as Hl. replace (zlen ids =? zlen f) with true by lia. cbn [negb ifthrow].
    exact (cellPart_ok world asked p ids f Hasked Hw Hl). }
  rewrite Ep. cbn [bind]. destruct (exchange parts fst N Lp HN) as (rids & Er & Lr & Hr); [intros p l Hp; by apply (Hparts p l Hp)|]. destruct (exchange parts snd N Lp HN) as (rvals & Ev & Lv & Hv); [intros p l Hp; by apply (Hparts p l Hp)|]. rewrite Er, Ev. cbn [bind].
  match goal with |- exists r, collect N ?g = _ /\ _ => destruct (collect_ok N g (fun r o => forall a, asked @ r = Some a -> exists u, enumerates (fun x => x ∈ a /\ exists p ids f, world @ p = Some (ids, f) /\ x ∈ ids) u /\ Forall2 (onCell world) u o)) as (out & Eo & Lo & Ho) end; [lia| |].
  - intros r Hrr. destruct (Hr r Hrr) as (C & HC & LC & HCat). destruct (Hv r Hrr) as (D & HD & LD & HDat). rewrite (rd_ok _ _ _ HC), (rd_ok _ _ _ HD). cbn [bind]. rewrite !aggr_ok by (intros ->; unfold zlen in *; cbn in *; lia). cbn [bind].
    assert (Hat : forall p, 0 <= p < N -> exists l x, parts @ p = Some l /\ l @ r = Some x /\ C @ p = Some x.1 /\ D @ p = Some x.2 /\ cellSent world asked p r x).
    { intros p Hp. destruct (zlook_lt parts p) as [l Hl]; [lia|]. destruct (Hparts p l Hl) as [P1 P2]. destruct (zlook_lt l r) as [x Hx]; [lia|]. exists l, x. split; [done|]. split; [done|]. split; [by eapply HCat|]. split; [by eapply HDat|]. by apply P2. }
    assert (HCD : Forall2 (onCell world) (concat C) (concat D)).
    { apply Forall2_concat, Forall2_zlook_2; [unfold zlen in *; lia|]. intros p c d Hc Hd. destruct (Hat p) as (l & x & _ & _ & H1 & H2 & H3); [apply zlook_Some_lt in Hc; lia|]. rewrite Hc in H1. injection H1 as ->. rewrite Hd in H2. injection H2 as ->. destruct H3 as (ids & f & a & Hw & _ & _ & HF).
      eapply Forall2_impl; [exact HF|]. intros v y (i & Hi & Hy). exists p, ids, f, i. done. }
    destruct (ordering_ok (concat C)) as (s & pm & u & b & Eord & Hperm & Eu & G & Ls & Hpm & Hpat). rewrite Eord. cbn [bind]. destruct (firsts_ok _ _ _ _ _ G Ls Hpm Hpat) as (n2o & En & Hn). rewrite En. cbn [bind].
    assert (Hlcd : zlen (concat C) = zlen (concat D)) by (apply Forall2_length in HCD; unfold zlen; lia).
    destruct (sel_ok (concat D) n2o) as (o & Eo & Hsel). { intros j Hj. apply elem_of_zlook in Hj as [k Hk]. destruct (zlook_lt u k) as [v Hv']; [apply Forall2_length in Hn; apply zlook_Some_lt in Hk; unfold zlen in *; lia|]. pose proof (Forall2_zlook _ _ _ _ _ _ Hn Hv' Hk) as Hi. cbn in Hi. apply zlook_Some_lt in Hi. lia. }
    exists o. split; [done|]. intros a Ha. exists u. split.
    + destruct G as (G1 & G2 & _). split; [done|]. intros v. rewrite G2, Hperm, concat_elem. split.
      * intros (p & y & Hy & Hvy). destruct (Hat p) as (l & x & _ & _ & H1 & _ & H3); [apply zlook_Some_lt in Hy; lia|]. rewrite Hy in H1. injection H1 as ->. destruct H3 as (ids & f & a' & Hw & Ha' & He & _). rewrite Ha in Ha'. injection Ha' as <-. apply He in Hvy as [X Y]. split; [done|]. exists p, ids, f. done.
      * intros [Hva (p & ids & f & Hw & Hvi)]. destruct (Hat p) as (l & x & _ & _ & H1 & _ & H3); [apply zlook_Some_lt in Hw; done|]. exists p, x.1. split; [done|]. destruct H3 as (ids' & f' & a' & Hw' & Ha' & He & _). rewrite Ha in Ha'. injection Ha' as <-. rewrite Hw in Hw'. injection Hw' as <- <-. apply He. done.
    + apply Forall2_zlook_2; [apply Forall2_length in Hn, Hsel; lia|]. intros k v y Hvk Hyk. destruct (zlook_lt n2o k) as [j Hj]; [apply Forall2_length in Hn; apply zlook_Some_lt in Hvk; unfold zlen in *; lia|]. pose proof (Forall2_zlook _ _ _ _ _ _ Hn Hvk Hj) as H1. pose proof (Forall2_zlook _ _ _ _ _ _ Hsel Hj Hyk) as H2. cbn in H1, H2. by apply (Forall2_zlook _ _ _ _ _ _ HCD H1 H2).
  - exists out. split; [done|]. split; [done|]. intros r o a H1 H2. by apply (Ho r o H1).
Qed.

Lemma collect_throw {B} n (f : Z -> res B) p : 0 <= p < n -> f p = Throw -> (forall q, 0 <= q < n -> f q = Throw \/ exists r, f q = Ok r) -> collect n f = Throw.
Proof.
  intros Hp Ht Hq. assert (W : wp (collect n f) (fun l => n <= p) True).
  { unfold collect. eapply (wp_forZ (fun i (l : list B) => i <= p)); [lia|lia| |intros; lia].
    intros i l Hi Hle. apply wp_bind. destruct (Hq i ltac:(lia)) as [->|[r E]]; [done|]. rewrite E. cbn [wp bind]. destruct (decide (i = p)) as [->|]; [congruence|lia]. }
  destruct (collect n f) as [l| | |]; cbn [wp] in W; [lia|done|done..].
Qed.
Lemma cellField_throw {A} (world : list (list Z * list A)) asked p ids f : zlen asked = zlen world -> world @ p = Some (ids, f) -> zlen ids <> zlen f -> redistributeCellField world asked = Throw.
Proof.
  intros Ha Hw Hne. unfold redistributeCellField. cbv zeta. rewrite (collect_throw _ _ p); [done|by apply zlook_Some_lt in Hw| |].
  - rewrite (rd_ok _ _ _ Hw). cbn [bind]. replace (zlen ids =? zlen f) with false by lia. done.
  - intros q Hq. destruct (zlook_lt world q Hq) as [[ids' f'] Hw']. rewrite (rd_ok _ _ _ Hw'). cbn [bind]. destruct (Z.eqb_spec (zlen ids') (zlen f')) as [E|]; [|by left]. right. cbn [negb ifthrow].
    destruct (cellPart_ok world asked q ids' f' Ha Hw' E) as (l & El & _). exists l. exact El.
Qed.

Lemma inc_app l k : increasing l -> increasing k -> (forall a b, a ∈ l -> b ∈ k -> a < b) -> increasing (l ++ k).
Proof.
  intros Hl Hk Hlk i j x y Hij Hx Hy. pose proof (zlook_Some_lt _ _ _ Hx) as Bi. pose proof (zlook_Some_lt _ _ _ Hy) as Bj. rewrite zlen_app in *.
  destruct (Z.lt_ge_cases j (zlen l)); [rewrite zlook_app_l in Hx, Hy by lia; by apply (Hl i j)|]. rewrite (zlook_app_r l k j) in Hy by lia.
  destruct (Z.lt_ge_cases i (zlen l)); [rewrite zlook_app_l in Hx by lia; apply Hlk; by eapply zlook_elem|]. rewrite zlook_app_r in Hx by lia. apply (Hk (i - zlen l) (j - zlen l)); [lia|done|done].
Qed.
Lemma inc_concat (l : list (list Z)) : (forall p y, l @ p = Some y -> increasing y) -> (forall p q y z a b, p < q -> l @ p = Some y -> l @ q = Some z -> a ∈ y -> b ∈ z -> a < b) -> increasing (concat l).
Proof.
  induction l as [|y l IH]; intros H1 H2; [intros i j x z _ Hx; apply zlook_Some_lt in Hx; change (zlen (concat (@nil (list Z)))) with 0 in Hx; lia|]. cbn [concat].
  assert (Sh : forall p z, l @ p = Some z -> (y :: l) @ (p + 1) = Some z /\ 0 <= p) by (intros p z Hz; pose proof (zlook_Some_lt _ _ _ Hz); rewrite zlook_cons; replace (p + 1 =? 0) with false by lia; replace (p + 1 - 1) with p by lia; split; [done|lia]).
  apply inc_app.
  - by apply (H1 0).
  - apply IH; [intros p z Hz; apply (H1 (p + 1)), Sh, Hz|]. intros p q z w a b Hpq Hz Hw. apply (H2 (p + 1) (q + 1)); [lia|apply Sh, Hz|apply Sh, Hw].
  - intros a b Ha Hb. apply concat_elem in Hb as (p & z & Hz & Hb). destruct (Sh p z Hz) as [S1 S2]. by apply (H2 0 (p + 1) y z); [lia|..].
Qed.
Lemma capture_ok N nb ids r : 0 < N -> 0 <= nb -> 0 <= r < N -> exists inside cap, captured N nb ids r = Ok inside /\ select ids inside = Ok cap /\ ids_where (fun v => lo_ N nb r <= v < hi_ N nb r) ids inside /\ Forall2 (fun i x => ids @ i = Some x) inside cap.
Proof.
  intros HN Hnb Hr. unfold captured. destruct (slice_ok N nb r HN Hnb Hr) as [-> _]. cbn [bind]. destruct (findIdsInRange_ok (vec ids) eq_refl eq_refl (lo_ N nb r) (hi_ N nb r)) as (inside & -> & Hin). cbn [da_vals vec] in Hin.
  destruct (sel_ok ids inside) as (cap & Ec & Hc); [intros i Hi; apply (proj2 Hin) in Hi as (v & Hv & _); by apply zlook_Some_lt in Hv|]. exists inside, cap. done.
Qed.
Lemma capture_in (P : Z -> Prop) ids inside cap v : ids_where P ids inside -> Forall2 (fun i x => ids @ i = Some x) inside cap -> v ∈ cap <-> v ∈ ids /\ P v.
Proof.
  intros [_ H] HF. split.
  - intros Hv. apply elem_of_zlook in Hv as [k Hk]. destruct (zlook_lt inside k) as [i Hi]; [apply Forall2_length in HF; apply zlook_Some_lt in Hk; unfold zlen in *; lia|]. pose proof (Forall2_zlook _ _ _ _ _ _ HF Hi Hk) as Hx. cbn in Hx. split; [by eapply zlook_elem|].
    apply zlook_elem, H in Hi as (w & Hw & HP). congruence.
  - intros [Hv HP]. apply elem_of_zlook in Hv as [i Hi]. assert (Hin : i ∈ inside) by (apply H; eauto). apply elem_of_zlook in Hin as [k Hk]. destruct (zlook_lt cap k) as [x Hx]; [apply Forall2_length in HF; apply zlook_Some_lt in Hk; unfold zlen in *; lia|].
    pose proof (Forall2_zlook _ _ _ _ _ _ HF Hk Hx) as E. cbn in E. rewrite Hi in E. injection E as <-. by eapply zlook_elem.
Qed.
Lemma slice_lt N nb r r' x y : 0 < N -> 0 <= nb -> 0 <= r < r' -> r' < N -> x < hi_ N nb r -> lo_ N nb r' <= y -> x < y.
Proof.
  intros HN Hnb Hr Hr'. unfold lo_, hi_. rewrite Z.quot_div_nonneg by lia. set (m := nb / N). assert (0 <= m) by (apply Z.div_pos; lia). replace (r <? N - 1) with true by lia. nia.
Qed.
Lemma complement_all (world : list (list Z)) nb : 0 < zlen world -> 0 <= nb ->
  exists c, paraComplement world nb = Ok c /\ enumerates (fun x => 0 <= x < nb /\ forall p ids, world @ p = Some ids -> x ∉ ids) c.
Proof.
  intros HN Hnb. unfold paraComplement. cbv zeta. set (N := zlen world) in *.
  match goal with |- context [bind (collect N ?g) _] => destruct (collect_ok N g (fun p l => zlen l = N /\ forall r x, l @ r = Some x -> exists ids, world @ p = Some ids /\ forall v, v ∈ x <-> v ∈ ids /\ lo_ N nb r <= v < hi_ N nb r)) as (parts & Ep & Lp & Hparts) end; [lia| |].
  { intros p Hp. destruct (zlook_lt world p Hp) as [ids Hw]. rewrite (rd_ok _ _ _ Hw). cbn [bind].
    match goal with |- exists r, collect N ?g = _ /\ _ => destruct (collect_ok N g (fun r x => exists ids, world @ p = Some ids /\ forall v, v ∈ x <-> v ∈ ids /\ lo_ N nb r <= v < hi_ N nb r)) as (l & El & Ll & Hl') end; [lia| |exists l; done].
    intros r Hr. destruct (capture_ok N nb ids r HN Hnb Hr) as (inside & cap & -> & Es & H1 & H2). cbn [bind]. exists cap. split; [done|]. exists ids. split; [done|]. intros v. exact (capture_in _ _ _ _ v H1 H2). }
  rewrite Ep. cbn [bind]. destruct (exchange parts id N Lp HN) as (rids & Er & Lr & Hr); [intros p l Hp; by apply (Hparts p l Hp)|].
  assert ((fun l : list (list Z) => id <$> l) <$> parts = parts) as Eid by (rewrite <- (list_fmap_id parts) at 2; apply list_fmap_ext; intros i x _; apply list_fmap_id). rewrite Eid in Er. rewrite Er. cbn [bind].
  match goal with |- context [bind (collect N ?g) _] => destruct (collect_ok N g (fun r c => enumerates (fun x => lo_ N nb r <= x < hi_ N nb r /\ forall p ids, world @ p = Some ids -> x ∉ ids) c)) as (comps & Eo & Lo & Ho) end; [lia| |].
  - intros r Hrr. destruct (Hr r Hrr) as (C & HC & LC & HCat). rewrite (rd_ok _ _ _ HC). cbn [bind]. rewrite aggr_ok by (intros ->; unfold zlen in *; cbn in *; lia). cbn [bind].
    assert (Hin : forall v, v ∈ concat C <-> lo_ N nb r <= v < hi_ N nb r /\ exists p ids, world @ p = Some ids /\ v ∈ ids).
    { intros v. rewrite concat_elem. split.
      - intros (p & y & Hy & Hv). destruct (zlook_lt parts p) as [l Hl]; [apply zlook_Some_lt in Hy; lia|]. destruct (Hparts p l Hl) as [P1 P2]. destruct (zlook_lt l r) as [x Hx]; [lia|]. pose proof (HCat p l x Hl Hx) as E. rewrite Hy in E. injection E as ->. destruct (P2 r x Hx) as (ids & Hw & Hiff). apply Hiff in Hv as [V1 V2]. split; [done|]. exists p, ids. done.
      - intros [Hb (p & ids & Hw & Hv)]. destruct (zlook_lt parts p) as [l Hl]; [apply zlook_Some_lt in Hw; lia|]. destruct (Hparts p l Hl) as [P1 P2]. destruct (zlook_lt l r) as [x Hx]; [lia|]. exists p, x. split; [apply (HCat p l x Hl Hx)|]. destruct (P2 r x Hx) as (ids' & Hw' & Hiff). rewrite Hw in Hw'. injection Hw' as <-. apply Hiff. done. }
    destruct (unique_ok (vec (sort (concat C))) eq_refl eq_refl) as (u & Eu & Hu); [apply SSle_nondec, sort_sorted|]. rewrite Eu. cbn [bind]. destruct (slice_ok N nb r HN Hnb Hrr) as (-> & B1 & B2). cbn [bind]. cbn [da_vals vec] in Hu.
    assert (Huin : forall v, v ∈ u <-> v ∈ concat C) by (intros v; rewrite (proj2 Hu), (sort_perm (concat C)); done).
    destruct (complement_ok (vec ((fun x => x - lo_ N nb r) <$> u)) (hi_ N nb r - lo_ N nb r) eq_refl eq_refl) as (k & Ek & Hk); [lia| |].
    { intros (v & Hv & Hn). cbn [da_vals vec] in Hv. apply elem_of_list_fmap in Hv as (x & -> & Hx). apply Huin, Hin in Hx as [Hx _]. lia. }
    rewrite Ek. cbn [bind]. rewrite initialised_ok. cbn [bind]. eexists. split; [done|]. cbn [da_vals vec] in Hk. split.
    + intros i j x y Hij. rewrite !zlook_fmap. destruct (k @ i) as [x'|] eqn:Ex; [|done]. destruct (k @ j) as [y'|] eqn:Ey; [|done]. cbn. intros [= <-] [= <-]. pose proof (proj1 Hk i j x' y' Hij Ex Ey). lia.
    + intros x. rewrite elem_of_list_fmap. split.
      * intros (y & -> & Hy). apply Hk in Hy as [Y1 Y2]. split; [lia|]. intros p ids Hw Hx. apply Y2, elem_of_list_fmap. exists (y + lo_ N nb r). split; [lia|]. apply Huin, Hin. split; [lia|]. exists p, ids. done.
      * intros [X1 X2]. exists (x - lo_ N nb r). split; [lia|]. apply Hk. split; [lia|]. intros Hx. apply elem_of_list_fmap in Hx as (y & Hy & Hyu). apply Huin, Hin in Hyu as [_ (p & ids & Hw & Hyi)]. replace y with x in Hyi by lia. by apply (X2 p ids Hw).
  - rewrite Eo. cbn [bind]. rewrite aggr_ok by (intros ->; unfold zlen in *; cbn in *; lia). eexists. split; [done|]. split.
    + apply inc_concat; [intros p y Hy; apply (Ho p y Hy)|]. intros p q y z a b Hpq Hy Hz Ha Hb. apply (Ho p y Hy) in Ha as [A1 _]. apply (Ho q z Hz) in Hb as [B1 _]. apply zlook_Some_lt in Hy, Hz. eapply (slice_lt N nb p q); lia.
    + intros x. rewrite concat_elem. split.
      * intros (p & y & Hy & Hx). apply (Ho p y Hy) in Hx as [X1 X2]. split; [|done]. apply zlook_Some_lt in Hy. destruct (slice_ok N nb p HN Hnb ltac:(lia)) as (_ & B1 & B2). lia.
      * intros [X1 X2]. destruct (slice_owner N nb x HN X1) as (r & Hrr & Hx). destruct (zlook_lt comps r) as [y Hy]; [lia|]. exists r, y. split; [done|]. apply (Ho r y Hy). done.
Qed.
