(** Sorting of the ids received; slices. *)
From stdpp Require Import sorting.
From Coq Require Import ZifyBool ZifyNat.
From Verif Require Import Base DataArray ArrLib LayoutProofs3 PartDefProofs StdModel StdProofs SlicesModel RenumModel RenumSpec RenumProofs IndexModel IndexSpec IndexProofs6 FillLib LayoutModel SearchModel SearchSpec SearchProofs2 SetsModel SetsProofs PermProofs SkyModel SkySpec SkyProofs BlkModel DecModel DecProofs DecProofs2 ParModel ParProofs.

Lemma SSle_nondec l : StronglySorted Z.le l -> nondecreasing l.
Proof.
  induction 1 as [|x l Hs IH Hf]; intros i j a b Hij Ha Hb; [apply zlook_Some_lt in Ha; change (zlen (@nil Z)) with 0 in Ha; lia|].
  pose proof (zlook_Some_lt _ _ _ Ha) as Hi. pose proof (zlook_Some_lt _ _ _ Hb) as Hj. rewrite List.Forall_forall in Hf.
  rewrite zlook_cons in Hb. destruct (Z.eqb_spec j 0); [lia|]. destruct (decide (i = 0)) as [->|Hi0].
  - injection Ha as <-. apply Hf. apply elem_of_list_In. by eapply zlook_elem.
  - rewrite zlook_cons in Ha. destruct (Z.eqb_spec i 0); [lia|]. eapply (IH (i - 1) (j - 1)); [lia|done|done].
Qed.
Lemma Forall2_zlook {A B} (R : A -> B -> Prop) l k i x y : Forall2 R l k -> l @ i = Some x -> k @ i = Some y -> R x y.
Proof. intros H Hx Hy. pose proof (zlook_Some_lt _ _ _ Hx). rewrite (zlook_to_nat l) in Hx by lia. rewrite (zlook_to_nat k) in Hy by lia. by eapply Forall2_lookup_lr. Qed.
Lemma Forall2_zlook_2 {A B} (R : A -> B -> Prop) l k : length l = length k -> (forall i x y, l @ i = Some x -> k @ i = Some y -> R x y) -> Forall2 R l k.
Proof. intros H1 H2. apply Forall2_same_length_lookup_2; [done|]. intros i x y Hx Hy. apply (H2 (Z.of_nat i)); by rewrite zlook_nat. Qed.
Lemma bracket (b : list Z) i lo hi : 0 < zlen b -> b @ 0 = Some lo -> b @ (zlen b - 1) = Some hi -> lo <= i < hi -> exists k x y, b @ k = Some x /\ b @ (k + 1) = Some y /\ x <= i < y.
Proof.
  intros Hn H0 Hl Hi. enough (G : forall m, 0 <= m -> m < zlen b -> (exists x, b @ m = Some x /\ i < x) -> exists k x y, b @ k = Some x /\ b @ (k + 1) = Some y /\ x <= i < y) by (apply (G (zlen b - 1)); [lia|lia|]; exists hi; split; [done|lia]).
  refine (natlike_ind _ _ _).
  - intros _ (x & Hx & Hlt). rewrite H0 in Hx. injection Hx as <-. lia.
  - intros m Hm IH Hlt (x & Hx & Hix). destruct (zlook_lt b m) as [y Hy]; [lia|]. destruct (Z.le_gt_cases y i) as [Hle|Hgt]; [exists m, y, x; rewrite Z.add_1_r; done|]. apply IH; [lia|]. exists y. done.
Qed.
(** The groups of equal values of a sorted list [s]: the distinct values [u] and the places where they begin. *)
Definition groups (s u b : list Z) : Prop :=
  increasing u /\ (forall x, x ∈ u <-> x ∈ s) /\ increasing b /\ zlen b = zlen u + 1 /\ b @ 0 = Some 0 /\ b @ (zlen u) = Some (zlen s) /\
  forall k x, u @ k = Some x -> exists lo hi, b @ k = Some lo /\ b @ (k + 1) = Some hi /\ 0 <= lo < hi /\ hi <= zlen s /\ forall i, s @ i = Some x <-> lo <= i < hi.
Lemma groups_ok2 s : nondecreasing s -> exists u b, buildUnique (vec s) = Ok u /\ indexOfSameConsecutiveValueGroups (vec s) = Ok b /\ groups s u b.
Proof.
  intros Hs. destruct (unique_ok (vec s) eq_refl eq_refl Hs) as (u & Eu & Hu). destruct (SetsProofs.groups_ok (vec s) eq_refl eq_refl) as (b & Eb & Hb). cbn [da_vals vec] in *. exists u, b. split; [done|]. split; [done|].
  destruct Hb as [Bi Bm]. pose proof (zlen_nonneg s) as Hsn.
  assert (Hb0 : b @ 0 = Some 0).
  { assert (H0 : 0 ∈ b) by (apply Bm; by left). apply elem_of_zlook in H0 as (k & Hk). pose proof (zlook_Some_lt _ _ _ Hk) as Hkr. destruct (decide (k = 0)) as [->|]; [done|]. destruct (zlook_lt b 0) as [x Hx]; [lia|]. pose proof (Bi 0 k x 0 ltac:(lia) Hx Hk) as Hlt. assert (x ∈ b) by (by eapply zlook_elem). apply Bm in H. lia. }
  assert (Hrange : forall x, x ∈ b -> 0 <= x <= zlen s) by (intros x Hx; apply Bm in Hx; lia).
  assert (Hlast : zlen s ∈ b).
  { apply Bm. destruct (decide (zlen s = 0)) as [->|]; [by left|]. right. split; [lia|]. destruct (zlook_lt s (zlen s - 1)) as [x Hx]; [lia|]. rewrite Hx. intros E. symmetry in E. apply zlook_Some_lt in E. lia. }
  assert (Hbn : 0 < zlen b) by (apply zlook_Some_lt in Hb0; lia).
  assert (Hbl : b @ (zlen b - 1) = Some (zlen s)).
  { apply elem_of_zlook in Hlast as (k & Hk). pose proof (zlook_Some_lt _ _ _ Hk) as Hkr. destruct (decide (k = zlen b - 1)) as [->|]; [done|]. destruct (zlook_lt b (zlen b - 1)) as [x Hx]; [lia|]. pose proof (Bi k (zlen b - 1) _ _ ltac:(lia) Hk Hx). pose proof (Hrange x ltac:(by eapply zlook_elem)). lia. }
  (* within a block all is equal *)
  assert (Hblock : forall k lo hi, b @ k = Some lo -> b @ (k + 1) = Some hi -> 0 <= lo < hi /\ hi <= zlen s /\ forall i, lo <= i < hi -> s @ i = s @ lo).
  { intros k lo hi Hlo Hhi. pose proof (Bi k (k + 1) lo hi ltac:(lia) Hlo Hhi) as Hlt. pose proof (Hrange lo ltac:(by eapply zlook_elem)). pose proof (Hrange hi ltac:(by eapply zlook_elem)). split; [lia|]. split; [lia|].
    intros i [Hi1 Hi2]. replace i with (lo + (i - lo)) in * by lia. assert (Hd : 0 <= i - lo) by lia. revert Hd Hi2. generalize (i - lo) as d. clear i Hi1. refine (natlike_ind _ _ _); [intros _; by rewrite Z.add_0_r|].
    intros d Hd IH Hi. rewrite <- IH by lia. destruct (decide (s @ (lo + Z.succ d - 1) = s @ (lo + Z.succ d))) as [E|Hne]; [rewrite <- E; f_equal; lia|]. exfalso.
    assert (Hin : lo + Z.succ d ∈ b) by (apply Bm; right; split; [lia|done]). apply elem_of_zlook in Hin as (k' & Hk').
    destruct (Z.lt_trichotomy k' k) as [Hx|[->|Hx]]; [pose proof (Bi _ _ _ _ Hx Hk' Hlo); lia|rewrite Hlo in Hk'; injection Hk'; lia|]. destruct (decide (k' = k + 1)) as [->|]; [rewrite Hhi in Hk'; injection Hk'; lia|]. pose proof (Bi (k + 1) k' _ _ ltac:(lia) Hhi Hk'). lia. }
  (* the values at the beginnings *)
  set (m := zlen b - 1). destruct (sel_ok s (take (Z.to_nat m) b)) as (v & Ev & Hv).
  { intros i Hi. apply elem_of_zlook in Hi as (k & Hk). pose proof (zlook_Some_lt _ _ _ Hk) as Hkr. rewrite zlen_take in Hkr. rewrite zlook_take in Hk by lia. destruct (zlook_lt b (k + 1)) as [hi Hhi]; [lia|]. destruct (Hblock k i hi Hk Hhi). lia. }
  assert (Hvl : zlen v = m) by (apply Forall2_length in Hv; rewrite take_length in Hv; unfold m, zlen in *; lia).
  assert (Hvat : forall k x, v @ k = Some x -> exists lo hi, b @ k = Some lo /\ b @ (k + 1) = Some hi /\ s @ lo = Some x).
  { intros k x Hx. pose proof (zlook_Some_lt _ _ _ Hx) as Hk. destruct (zlook_lt b k) as [lo Hlo]; [lia|]. destruct (zlook_lt b (k + 1)) as [hi Hhi]; [lia|]. exists lo, hi. split; [done|]. split; [done|]. eapply Forall2_zlook in Hv; [exact Hv| |exact Hx]. by rewrite zlook_take by lia. }
  assert (Hstep : forall k x y, v @ k = Some x -> v @ (k + 1) = Some y -> x < y).
  { intros k x y Hx Hy. destruct (Hvat k x Hx) as (lo & hi & Hlo & Hhi & Hsx). destruct (Hvat (k + 1) y Hy) as (lo' & hi' & Hlo' & Hhi' & Hsy). rewrite Hhi in Hlo'. injection Hlo' as <-. destruct (Hblock k lo hi Hlo Hhi) as (H1 & H2 & H3). pose proof (Hs lo hi x y ltac:(lia) Hsx Hsy). assert (x <> y); [|lia]. intros ->.
    assert (hi ∈ b) as Hin by (by eapply zlook_elem). apply Bm in Hin as [?|[_ Hne]]; [lia|]. apply Hne. rewrite (H3 (hi - 1)) by lia. by rewrite Hsx, Hsy. }
  assert (Hvinc : increasing v).
  { intros i j x y Hij Hx Hy. pose proof (zlook_Some_lt _ _ _ Hx). pose proof (zlook_Some_lt _ _ _ Hy) as Hj. replace j with (i + 1 + (j - i - 1)) in Hy by lia. assert (Hd : 0 <= j - i - 1) by lia. revert y Hy. revert Hd. generalize (j - i - 1) as d. clear j Hij Hj. refine (natlike_ind _ _ _).
    - intros y Hy. rewrite Z.add_0_r in Hy. by eapply Hstep.
    - intros d Hd IH y Hy. pose proof (zlook_Some_lt _ _ _ Hy). destruct (zlook_lt v (i + 1 + d)) as [z Hz]; [lia|]. pose proof (IH z Hz). replace (i + 1 + Z.succ d) with (i + 1 + d + 1) in Hy by lia. pose proof (Hstep _ _ _ Hz Hy). lia. }
  assert (Hvm : forall x, x ∈ v <-> x ∈ s).
  { intros x. split.
    - intros Hx. apply elem_of_zlook in Hx as (k & Hk). destruct (Hvat k x Hk) as (lo & hi & _ & _ & Hsx). by eapply zlook_elem.
    - intros Hx. apply elem_of_zlook in Hx as (i & Hi). pose proof (zlook_Some_lt _ _ _ Hi) as Hir. destruct (bracket b i 0 (zlen s) Hbn Hb0 Hbl Hir) as (k & lo & hi & Hlo & Hhi & Hin). pose proof (zlook_Some_lt _ _ _ Hhi). pose proof (zlook_Some_lt _ _ _ Hlo). destruct (Hblock k lo hi Hlo Hhi) as (_ & _ & H3). destruct (zlook_lt v k) as [y Hy]; [lia|].
      destruct (Hvat k y Hy) as (lo' & hi' & Hlo' & _ & Hsy). rewrite Hlo in Hlo'. injection Hlo' as <-. rewrite (H3 i Hin), Hsy in Hi. injection Hi as <-. by eapply zlook_elem. }
  assert (u = v) as -> by (apply (enumerates_ext (fun x => x ∈ s)); [done|split; done]).
  split; [done|]. split; [done|]. split; [done|]. split; [lia|]. split; [done|]. split; [by rewrite Hvl|].
  intros k x Hx. destruct (Hvat k x Hx) as (lo & hi & Hlo & Hhi & Hsx). destruct (Hblock k lo hi Hlo Hhi) as (H1 & H2 & H3). exists lo, hi. split; [done|]. split; [done|]. split; [done|]. split; [done|]. intros i. split; [|intros Hi; by rewrite (H3 i Hi)].
  intros Hi. pose proof (zlook_Some_lt _ _ _ Hi) as Hir. destruct (Z.le_gt_cases lo i) as [Hlei|Hgt].
  - destruct (Z.lt_ge_cases i hi) as [|Hge]; [done|]. exfalso. destruct (zlook_lt s hi) as [y Hy]; [lia|]. assert (x <= y) by (eapply (Hs lo hi); [lia|done|done]). assert (y <= x). { destruct (decide (i = hi)) as [->|]; [rewrite Hi in Hy; injection Hy; lia|]. eapply (Hs hi i); [lia|done|done]. } assert (y = x) as -> by lia.
    assert (hi ∈ b) as Hin by (by eapply zlook_elem). apply Bm in Hin as [?|[_ Hne]]; [lia|]. apply Hne. rewrite (H3 (hi - 1)) by lia. by rewrite Hsx, Hy.
  - exfalso. destruct (zlook_lt s (lo - 1)) as [y Hy]; [lia|]. assert (y <= x) by (eapply (Hs (lo - 1) lo); [lia|done|done]). assert (x <= y). { destruct (decide (i = lo - 1)) as [->|]; [rewrite Hi in Hy; injection Hy; lia|]. eapply (Hs i (lo - 1)); [lia|done|done]. } assert (y = x) as -> by lia.
    assert (lo ∈ b) as Hin by (by eapply zlook_elem). apply Bm in Hin as [?|[_ Hne]]; [lia|]. apply Hne. by rewrite Hsx, Hy.
Qed.
Lemma ordering_ok l : exists s p u b, ordering l = Ok (s, p, b) /\ s ≡ₚ l /\ buildUnique (vec s) = Ok u /\ groups s u b /\ zlen s = zlen l /\ is_perm (zlen l) p /\ (forall i j, p @ i = Some j -> l @ j = s @ i).
Proof.
  destruct (findPermDup_ok (sort l) l (sort_perm l)) as (p & Ep & P1 & P2 & P3). destruct (groups_ok2 (sort l)) as (u & b & Eu & Eb & G); [apply SSle_nondec, sort_sorted|].
  exists (sort l), p, u, b. split; [|split; [apply sort_perm|]; split; [done|]; split; [done|]; split; [apply sort_len|]; split; [by rewrite sort_len in P1|done]].
  unfold ordering. rewrite Ep. cbn [bind]. rewrite initialised_ok. cbn [bind]. rewrite Eb. done.
Qed.
Lemma perm_at n p i : is_perm n p -> 0 <= n -> 0 <= i < n -> exists j, p @ i = Some j /\ 0 <= j < n.
Proof.
  intros Hp Hn Hi. assert (Hl : zlen p = n) by (unfold zlen, is_perm in *; rewrite Hp, seqZ_length; lia). destruct (zlook_lt p i) as [j Hj]; [lia|]. exists j. split; [done|]. assert (Hin : j ∈ p) by (by eapply zlook_elem). unfold is_perm in Hp. rewrite Hp in Hin. apply elem_of_seqZ in Hin. lia.
Qed.
(** For each distinct id, in increasing order, a place where it is. *)
Lemma firsts_ok l s p u b : groups s u b -> zlen s = zlen l -> is_perm (zlen l) p -> (forall i j, p @ i = Some j -> l @ j = s @ i) -> exists n2o, select p (butLast b) = Ok n2o /\ Forall2 (fun x j => l @ j = Some x) u n2o.
Proof.
  intros (G1 & G2 & G3 & G4 & G5 & G6 & G7) Hl Hp Hat. pose proof (zlen_nonneg l) as Hn. assert (Hpl : zlen p = zlen l) by (unfold zlen, is_perm in *; rewrite Hp, seqZ_length; lia).
  assert (Hbl : forall k x, butLast b @ k = Some x -> exists y, u @ k = Some y /\ b @ k = Some x).
  { intros k x Hx. unfold butLast in Hx. pose proof (zlook_Some_lt _ _ _ Hx) as Hk. rewrite zlen_take in Hk. rewrite zlook_take in Hx by lia. destruct (zlook_lt u k) as [y Hy]; [unfold zlen in *; lia|]. eauto. }
  destruct (sel_ok p (butLast b)) as (n2o & E & F).
  { intros i Hi. apply elem_of_zlook in Hi as (k & Hk). destruct (Hbl k i Hk) as (y & Hy & Hb). destruct (G7 k y Hy) as (lo & hi & Hlo & _ & H1 & H2 & _). rewrite Hlo in Hb. injection Hb as <-. lia. }
  exists n2o. split; [done|]. apply Forall2_zlook_2.
  - apply Forall2_length in F. unfold butLast in F. rewrite take_length in F. unfold zlen in *. lia.
  - intros k x j Hx Hj. destruct (G7 k x Hx) as (lo & hi & Hlo & _ & H1 & H2 & H3). pose proof (zlook_Some_lt _ _ _ Hx) as Hkr. eapply (Forall2_zlook _ _ _ k lo j) in F; [|unfold butLast; rewrite zlook_take by (unfold zlen in *; lia); done|done].
    rewrite (Hat _ _ F). apply H3. lia.
Qed.
(** Slices of [0, nb). *)
Definition lo_ (N nb r : Z) : Z := Z.quot nb N * r.
Definition hi_ (N nb r : Z) : Z := if r <? N - 1 then Z.quot nb N * (r + 1) else nb.
Lemma slice_ok N nb r : 0 < N -> 0 <= nb -> 0 <= r < N -> GetSlice 0 nb 1 r N = Ok (lo_ N nb r, hi_ N nb r) /\ 0 <= lo_ N nb r <= hi_ N nb r /\ hi_ N nb r <= nb.
Proof.
  intros HN Hnb Hr. unfold GetSlice. replace (N <=? 0) with false by lia. replace ((r <? 0) || (N <=? r)) with false by lia. cbn [ifthrow].
  assert (GetNumberOfItemGivenBESRelative 0 nb 1 = Ok nb) as ->.
  { unfold GetNumberOfItemGivenBESRelative. change (1 =? 0) with false. replace ((nb <? 0) && (0 <? 1)) with false by lia. replace ((0 <? nb) && (1 <? 0)) with false by lia. cbn [ifthrow]. change (Z.abs 1) with 1. rewrite Z.quot_1_r. destruct (Z.eqb_spec 0 nb) as [<-|]; [done|]. cbn [negb]. f_equal. lia. }
  cbn [bind]. unfold lo_, hi_. split; [do 2 f_equal; [lia|destruct (r <? N - 1); lia]|]. rewrite Z.quot_div_nonneg by lia. pose proof (Z.mul_div_le nb N HN). assert (0 <= nb / N) by (apply Z.div_pos; lia). destruct (r <? N - 1) eqn:E; nia.
Qed.
Lemma slice_owner N nb x : 0 < N -> 0 <= x < nb -> exists r, 0 <= r < N /\ lo_ N nb r <= x < hi_ N nb r.
Proof.
  intros HN Hx. unfold lo_, hi_. rewrite Z.quot_div_nonneg by lia. set (m := nb / N). assert (0 <= m) by (apply Z.div_pos; lia). destruct (Z.le_gt_cases (m * (N - 1)) x) as [Hle|Hgt].
  - exists (N - 1). split; [lia|]. replace (N - 1 <? N - 1) with false by lia. lia.
  - assert (0 < m) by nia. exists (x / m). pose proof (Z.mul_div_le x m). pose proof (Z.mul_succ_div_gt x m). assert (0 <= x / m) by (apply Z.div_pos; lia). assert (x / m < N - 1) by nia. split; [lia|]. replace (x / m <? N - 1) with true by lia. nia.
Qed.
Lemma slice_one N nb x r r' : 0 < N -> 0 <= nb -> 0 <= r < N -> 0 <= r' < N -> lo_ N nb r <= x < hi_ N nb r -> lo_ N nb r' <= x < hi_ N nb r' -> r = r'.
Proof.
  intros HN Hnb Hr Hr'. unfold lo_, hi_. rewrite Z.quot_div_nonneg by lia. set (m := nb / N). assert (0 <= m) by (apply Z.div_pos; lia). intros H1 H2.
  destruct (Z.lt_trichotomy r r') as [Hlt|[|Hlt]]; [exfalso|done|exfalso].
  - replace (r <? N - 1) with true in H1 by lia. nia.
  - replace (r' <? N - 1) with true in H2 by lia. nia.
Qed.
